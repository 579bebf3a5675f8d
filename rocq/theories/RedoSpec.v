(** Vocabulary of C103: doing again what failed or was interrupted. *)
From Verif Require Import Base Storage PathFacts StorageSpec.
Local Open Scope list_scope.
Local Open Scope Z_scope.

(** The same files and directories; everything in memory may differ. *)
Definition same_disk (w w' : world) : Prop := w_files w' = w_files w /\ w_dirs w' = w_dirs w.

(** Any number of attempts to write the resource into the directory, by any
    processes, with any contents, in which any system calls fail and which may be
    killed. *)
Inductive tried (base name : string) (w : world) : world -> Prop :=
| tried_not w1 : same_disk w w1 -> tried base name w w1
| tried_again w1 fs b e id schema data o w2 w3 : tried base name w w1 ->
    write b e (FileStorage id base) name schema data (set_faults fs w1) = (o, w2) ->
    same_disk w2 w3 -> tried base name w w3.

(** The same for attempts to create the archive. *)
Inductive tried_create (base aname : string) (w : world) : world -> Prop :=
| created_not w1 : same_disk w w1 -> tried_create base aname w w1
| created_again w1 fs b e id schema o w2 w3 : tried_create base aname w w1 ->
    create_archive b e (FileStorage id base) aname schema (set_faults fs w1) = (o, w2) ->
    same_disk w2 w3 -> tried_create base aname w w3.

(** There is nothing in the way: neither of the two files is a directory, and the
    directory exists or there is no file on the way to it. *)
Definition file_of (base name : string) : key := res_key (FileStorage 0 base) name.
Definition free_place (base name : string) (w : world) : Prop :=
  is_dir (file_of base name) w = false /\ is_dir (file_of base (schema_name name)) w = false /\ base_ready base w.

(** Directories are in directories. *)
Definition tree_ok (w : world) : Prop :=
  forall k x, is_dir k w = true -> is_prefix_of x k = true -> is_dir x w = true.

(** [w'] is [w] with the resource written, and with the directory and those it is in. *)
Definition resource_added (base name : string) (schema data : list Z) (w w' : world) : Prop :=
  w_files w' (file_of base name) = Some (resource_bytes data) /\
  w_files w' (file_of base (schema_name name)) = Some schema /\
  (forall k, k <> file_of base name -> k <> file_of base (schema_name name) -> w_files w' k = w_files w k) /\
  forall x, is_dir x w' = is_dir x w || is_prefix_of x (key_of base).
