(** What it means that a release build does the same as a debug build. *)
From Verif Require Import Base Storage.

(** The debug build panics, or both give the same outcome. *)
Definition agrees {A} (debug release : outcome A) : Prop := debug = Panic \/ debug = release.
(** The same for code acting on a world: also the same world (disk, memory
    storages, mappings, remaining faults) afterwards. *)
Definition magrees {A} (debug release : M A) : Prop :=
  forall w, fst (debug w) = Panic \/ debug w = release w.
