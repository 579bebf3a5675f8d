(** Vocabulary of C105: writing vectors again after attempts that failed or were
    interrupted. *)
From Verif Require Import Base Codec Structs Views Storage PathFacts StorageSpec Writers WritersSpec MultiViews MultiSpec RedoSpec.
Local Open Scope list_scope.
Local Open Scope Z_scope.

(** Any number of attempts to write an external vector: create it, add elements,
    close it, by any processes, with any types, schemas and values, in which any
    system calls fail.  An attempt may be killed anywhere; one that is given up
    (the vector is not closed) leaves the same on the disk as one that is killed
    in close. *)
Inductive tried_vector (base name : string) (w : world) : world -> Prop :=
| vector_not w1 : same_disk w w1 -> tried_vector base name w w1
| vector_again w1 fs b e lim s id schema sets o w2 w3 : tried_vector base name w w1 ->
    ev_session b e lim s (FileStorage id base) name schema (map EGrow sets) (set_faults fs w1) = (o, w2) ->
    same_disk w2 w3 -> tried_vector base name w w3.
Inductive tried_multi (base name : string) (w : world) : world -> Prop :=
| multi_not w1 : same_disk w w1 -> tried_multi base name w w1
| multi_again w1 fs b e lim size bits ts id schema items o w2 w3 : tried_multi base name w w1 ->
    mv_session b e lim size bits ts (FileStorage id base) name schema (map MGrow items) (set_faults fs w1) = (o, w2) ->
    same_disk w2 w3 -> tried_multi base name w w3.

(** [w'] is [w] with these files in [base], and with the directory [base] and those it is in. *)
Definition files_added (base : string) (l : list (string * list Z)) (w w' : world) : Prop :=
  (forall n c, In (n, c) l -> w_files w' (file_of base n) = Some c) /\
  (forall k, (forall n c, In (n, c) l -> k <> file_of base n) -> w_files w' k = w_files w k) /\
  forall x, is_dir x w' = is_dir x w || is_prefix_of x (key_of base).

(** A storage object that has read nothing. *)
Definition new_object (id : nat) (w : world) : Prop := maps_ok w /\ forall p, w_maps w id p = None.
