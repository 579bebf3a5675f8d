(** Vocabulary for calls that write, in any world (C99). *)
From Verif Require Import Base Storage StorageSpec Writers.
Local Open Scope list_scope.
Local Open Scope Z_scope.

(** The process may be killed. *)
Definition may_die (w : world) : Prop := exists n, In (FCrash n) (w_faults w).
(** The call returns, whatever the world is like, unless the process is killed in it:
    it neither panics nor touches memory it must not touch. *)
Definition answers {A} (m : M A) : Prop := forall w,
  (exists r, fst (m w) = Ret r) \/ (fst (m w) = Crash /\ may_die w).
(** The next calls look for the directory, which is there, and fail to create the
    file. *)
Definition cannot_create (k : io_kind) (w : world) : Prop := exists l, w_faults w = FOk :: FErr k :: l.
