(** Vocabulary for going on with a builder when calls no longer fail. *)
From Verif Require Import Base Codec Structs Views Storage PathFacts StorageSpec Writers WritersSpec MultiViews Archives ArchiveSpec BuilderSpec RetrySpec.
Local Open Scope list_scope.
Local Open Scope Z_scope.

(** There is nothing at [base] or below and no file is in the way. *)
Definition bare (base : string) (w : world) : Prop :=
  (forall n, w_files w (fst (key_of base), firstn n (snd (key_of base))) = None) /\
  forall k, under base k -> w_files w k = None /\ w_dirs w k = false.

(** A sub-archive is created only where there is no signature file of it yet. *)
Fixpoint may_create (a : adesc) (base : string) (o : bop) (w : world) : Prop :=
  match o with
  | BSubNew k => forall x, nth_error (ad_subs a) k = Some x ->
      w_files w (key_of (path_join (path_join base (fst (fst x))) (signature_name (ad_name (snd (fst x)))))) = None
  | BSub k o => forall x, nth_error (ad_subs a) k = Some x -> may_create (snd (fst x)) (path_join base (fst (fst x))) o w
  | _ => True
  end.

(** The call closes a vector or multivector. *)
Fixpoint closes (o : bop) : bool :=
  match o with BVecClose _ | BMulClose _ => true | BSub _ o => closes o | _ => false end.

(** Creating a sub-archive has not failed. *)
Inductive subs_fine : course -> Prop :=
| subs_fine_intro A : (forall k, co_subs A k <> SFailed) -> (forall k B, co_subs A k = SLive B -> subs_fine B) -> subs_fine A.
(** No vector or multivector is being written. *)
Inductive idle : course -> Prop :=
| idle_intro A : (forall k l, co_vecs A k <> VWriting l) -> (forall k l, co_muls A k <> MWriting l) ->
    (forall k B, co_subs A k = SLive B -> idle B) -> idle A.
