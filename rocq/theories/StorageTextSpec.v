(** Vocabulary of C106: what is counted in the text of a memory storage. *)
From Verif Require Import Base Storage PathFacts StorageSpec.
Local Open Scope list_scope.
Local Open Scope Z_scope.

(** Calls on a storage, whatever they return. *)
Inductive call := CWrite (name : string) (schema data : list Z) | CRead (name : string) (schema : list Z) | CExists (name : string).
Definition call_name (c : call) : string := match c with CWrite n _ _ | CRead n _ | CExists n => n end.
Fixpoint run_calls (b : build) (e : endian) (st : storage) (l : list call) : M unit :=
  match l with
  | [] => mret tt
  | CWrite n schema data :: l => let! _ := write b e st n schema data in run_calls b e st l
  | CRead n schema :: l => let! _ := read b e st n schema in run_calls b e st l
  | CExists n :: l => let! _ := exists_ st n in run_calls b e st l
  end.

(** The names that have been written and those that have been read.  Each write
    adds the name and the name of the schema.  Each read adds the name, if it has been
    written, and then the name of the schema, if that has been written. *)
Definition add (n : string) (l : list string) : list string := if in_dec string_dec n l then l else n :: l.
Fixpoint tally (l : list call) (written seen : list string) : list string * list string :=
  match l with
  | [] => (written, seen)
  | CWrite n _ _ :: l => tally l (add (schema_name n) (add n written)) seen
  | CRead n _ :: l =>
      tally l written
        (if in_dec string_dec n written
         then if in_dec string_dec (schema_name n) written then add (schema_name n) (add n seen) else add n seen
         else seen)
  | CExists _ :: l => tally l written seen
  end.

(** Nothing has been done with storages yet; there may be anything on the disk. *)
Definition no_storages (w : world) : Prop :=
  (forall id k, w_streams w id k = None) /\ (forall id k, w_resources w id k = None) /\ forall id p, w_maps w id p = None.
