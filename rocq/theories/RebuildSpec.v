(** Vocabulary of C108: building an archive again after its signature was removed. *)
From Verif Require Import Base Codec CodecSpec Structs StructsSpec Views ViewsSpec Storage PathFacts StorageSpec Writers WritersSpec MultiViews MultiSpec Archives RedoSpec RerunSpec.
Local Open Scope list_scope.
Local Open Scope Z_scope.

(** A program that makes a builder and writes resources with its storage, as the
    setters of the builder do (archive.rs:654-707); it stops when something fails. *)
Definition build_all (b : build) (e : endian) (lim : Z) (a : adesc) (st : storage) (l : list resource) : M bool :=
  let! x := builder_new b e a st in
  match x with
  | Ok st => put_all b e lim st l
  | Er _ => mret false
  end.
(** The signature as a resource, and all files of the program. *)
Definition signature (a : adesc) : resource := Plain (signature_name (ad_name a)) (ad_schema a) [].
Definition build_files (a : adesc) (l : list resource) : list string := all_files (signature a :: l).

(** Any number of runs of such programs that write some of these files, in which any
    system calls fail and which may be killed anywhere; between them any of these files
    may be removed. *)
Inductive history (base : string) (names : list string) (w : world) : world -> Prop :=
| history_none w1 : same_disk w w1 -> history base names w w1
| history_run w1 fs b e lim a id l o w2 w3 : history base names w w1 -> incl (build_files a l) names ->
    build_all b e lim a (FileStorage id base) l (set_faults fs w1) = (o, w2) ->
    same_disk w2 w3 -> history base names w w3
| history_remove w1 n w2 : history base names w w1 -> In n names ->
    w_files w2 = kupd (file_of base n) None (w_files w1) -> w_dirs w2 = w_dirs w1 -> history base names w w2.
