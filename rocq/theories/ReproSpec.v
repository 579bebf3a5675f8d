(** Vocabulary: when two builders have been given the same data, and when two
    directories hold the same files. *)
From Verif Require Import Base Codec CodecSpec Structs StructsSpec Views ViewsSpec.
From Verif Require Import Storage PathFacts StorageSpec Writers WritersSpec MultiViews MultiSpec Archives ArchiveSpec BuilderSpec.
Local Open Scope list_scope.
Local Open Scope Z_scope.

(** A vector set from bytes or element by element; the order of the setter
    calls on an element does not matter. *)
Definition same_vec (s : sdesc) (o o' : vslot) : Prop :=
  match o, o' with
  | VUnset, VUnset => True
  | VSet d, VSet d' => d = d'
  | VClosed l, VClosed l' => elements s l = elements s l'
  | VSet d, VClosed l | VClosed l, VSet d => array_of s d (elements s l)
  | _, _ => False
  end.
Definition same_mul (ts : vdesc) (o o' : mslot) : Prop :=
  match o, o' with
  | MUnset, MUnset => True
  | MClosed l, MClosed l' => buckets ts l = buckets ts l'
  | _, _ => False
  end.
Inductive same_plan : adesc -> plan -> plan -> Prop := SamePlan a A A' :
  (forall k r, nth_error (ad_structs a) k = Some r -> pl_structs A k = pl_structs A' k) ->
  (forall k r, nth_error (ad_vectors a) k = Some r -> same_vec (tr_struct r) (pl_vecs A k) (pl_vecs A' k)) ->
  (forall k r, nth_error (ad_multis a) k = Some r -> same_mul (mr_types r) (pl_muls A k) (pl_muls A' k)) ->
  (forall k r, nth_error (ad_raws a) k = Some r -> pl_raws A k = pl_raws A' k) ->
  (forall k s, nth_error (ad_subs a) k = Some s -> (pl_subs A k = None <-> pl_subs A' k = None)) ->
  (forall k s B B', nth_error (ad_subs a) k = Some s -> pl_subs A k = Some B -> pl_subs A' k = Some B' ->
     same_plan (snd (fst s)) B B') ->
  same_plan a A A'.

(** The files in and below two directories, by relative path. *)
Definition inside (base : string) (q : list string) : key := (fst (key_of base), snd (key_of base) ++ q).
Definition same_tree (base : string) (w : world) (base' : string) (w' : world) : Prop :=
  forall q, q <> [] -> w_files w (inside base q) = w_files w' (inside base' q).
