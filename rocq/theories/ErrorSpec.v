(** Vocabulary: which error opening an archive returns. *)
From Verif Require Import Base Codec Storage StorageSpec Writers MultiViews Archives.
Local Open Scope list_scope.
Local Open Scope Z_scope.

(** The reads that must succeed, in their order: directory, resource, schema.
    Parts of an optional sub-archive are not among them. *)
Definition need (base name : string) (schema : list Z) : string * string * list Z := (base, name, schema).
Definition need_if (opt : bool) (l : list (string * string * list Z)) := if opt then [] else l.
Fixpoint required_reads (a : adesc) (base : string) {struct a} : list (string * string * list Z) :=
  let 'mkArchive name schema structs vectors multis raws subs := a in
  need base (signature_name name) schema ::
  flat_map (fun r => need_if (tr_opt r) [need base (tr_name r) (tr_schema r)]) structs ++
  flat_map (fun r => need_if (tr_opt r) [need base (tr_name r) (tr_schema r)]) vectors ++
  flat_map (fun r => need_if (mr_opt r) [need base (mr_index r) (index_schema (mr_schema r)); need base (mr_name r) (mr_schema r)]) multis ++
  flat_map (fun r => need_if (rr_opt r) [need base (rr_name r) (rr_schema r)]) raws ++
  (fix go (l : list (string * adesc * bool)) : list (string * string * list Z) :=
     match l with
     | [] => []
     | (n, a', opt) :: l => need_if opt (required_reads a' (path_join base n)) ++ go l
     end) subs.

Definition names_of (l : list (string * string * list Z)) : list string := map (fun r => snd (fst r)) l.

Section Env.
Variables (b : build) (e : endian) (w : world).
Definition read_at (r : string * string * list Z) : outcome (result slice rs_error) :=
  fresh_read b e (fst (fst r)) (snd (fst r)) (snd r) w.
(** The first of the reads that fails, each one made by a new process. *)
Definition first_failure (l : list (string * string * list Z)) (r : string * string * list Z) (x : rs_error) : Prop :=
  exists l1 l2, l = l1 ++ r :: l2 /\ (forall q, In q l1 -> exists d, read_at q = Ret (Ok d)) /\ read_at r = Ret (Er x).
End Env.

(** The resource an error names; some name none. *)
Definition error_names (x : rs_error) : option string :=
  match x with EIo _ n | EMissingSchema n | EWrongSignature n => Some n | EUtf8 | EUnexpectedDataSize => None end.
Definition is_missing_schema (x : rs_error) : bool := match x with EMissingSchema _ => true | _ => false end.
(** What an archive may report: never [EMissingSchema]; a name is one of [l]. *)
Definition reports (l : list string) (x : rs_error) : Prop :=
  is_missing_schema x = false /\ forall n, error_names x = Some n -> In n l.
