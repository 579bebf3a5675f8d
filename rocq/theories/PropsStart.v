(** Property C99: calls that create or write resources return, in whatever state
    the file system, the storage and the process are, and report failures as
    errors; create_multi_vector does not.  Vocabulary: StartSpec.v ([answers]: the
    call returns, or the process is killed; [cannot_create]: the next file cannot
    be created). *)
From Verif Require Import Base Codec Structs StructsSpec Views Storage PathFacts StorageSpec StorageUse PropsStorage Writers WritersSpec StartSpec StartFacts.
From Verif Require Import MultiViews MultiSpec Archives ArchiveSpec PropsArchive BuilderSpec.
Local Open Scope list_scope.
Local Open Scope Z_scope.

(** No condition on names, contents, storages or worlds. *)
Theorem C99_storage_partial b e st name schema data :
  answers (write b e st name schema data) /\ answers (create_external_vector b e st name schema) /\
  answers (create_archive b e st name schema) /\ answers (exists_ st name).
Proof.
  split; [eapply goes_answers, write_goes|]. split; [eapply goes_answers, create_ev_goes|].
  split; [eapply goes_answers, create_archive_goes|eapply goes_answers, exists_all_goes].
Qed.
Print Assumptions C99_storage_partial.

(** Calls of builders; the struct setter needs a struct of the size (C46). *)
Theorem C99_builder_partial b e a st :
  answers (builder_new b e a st) /\ (forall r v, answers (set_vector b e st r v)) /\ (forall r d, answers (set_raw b e st r d)) /\
  (forall r m, s_size (tr_struct r) <= len m -> answers (set_struct b e st r m)) /\
  (forall r, answers (start_vector b e st r)) /\ (forall s, answers (sub_builder b e st s)).
Proof.
  split; [eapply goes_answers, builder_new_goes|]. split; [intros; eapply goes_answers, write_goes|].
  split; [intros; eapply goes_answers, write_goes|]. split.
  - intros r m H. unfold set_struct. rewrite (proj2 (Z.leb_le _ _) H). eapply goes_answers, write_goes.
  - split; [intros; eapply goes_answers, create_ev_goes|intros; eapply goes_answers, sub_builder_goes].
Qed.
Print Assumptions C99_builder_partial.

(** In memory nothing fails. *)
Theorem C99_memory b e id base name schema data w : let st := MemStorage id base in
  (exists w', write b e st name schema data w = (Ret (Ok tt), w')) /\
  (exists v w', create_external_vector b e st name schema w = (Ret (Ok v), w')) /\
  (exists v w', create_multi_vector b e st name schema w = (Ret (Ok v), w')).
Proof. split; [apply mem_write|]. split; [apply mem_vector|apply mem_multi]. Qed.
Print Assumptions C99_memory.

(** The exact result of create_multi_vector: an error if the index cannot be created,
    but a panic if the data cannot be created then. *)
Theorem C99_multi_exact b e st name schema w w' :
  let index := create_external_vector b e st (index_name name) (index_schema schema) w in
  let data := create_handle b e st name schema in
  let multi := create_multi_vector b e st name schema w in
  (forall v, multi = (Ret (Ok v), w') <-> exists i w1 h, index = (Ret (Ok i), w1) /\ data w1 = (Ret (Ok h), w') /\ v = mv_new i h) /\
  (forall k, multi = (Ret (Er k), w') <-> index = (Ret (Er k), w')) /\
  (multi = (Panic, w') <-> exists i w1 k, index = (Ret (Ok i), w1) /\ data w1 = (Ret (Er k), w')) /\
  fst multi <> UB /\ (fst multi = Crash -> may_die w).
Proof. exact (create_mv_exact b e st name schema w w'). Qed.
Print Assumptions C99_multi_exact.

(** So it panics for every multivector and state if the file of the data (or its
    schema) cannot be created after the index has been, ... *)
Theorem C99_multi_refuted b e id base name schema w i w1 k : let st := FileStorage id base in
  create_external_vector b e st (index_name name) (index_schema schema) w = (Ret (Ok i), w1) -> cannot_create k w1 ->
  fst (create_multi_vector b e st name schema w) = Panic.
Proof.
  intros st E1 C. destruct (handle_fails b e st name schema w1 k eq_refl C) as (w2 & E2).
  rewrite (proj2 (proj1 (proj2 (proj2 (create_mv_exact b e st name schema w w2)))) ltac:(eauto)). reflexivity.
Qed.
Print Assumptions C99_multi_refuted.

(** ... and even if no system call fails: if there is a directory of this name. *)
Theorem C99_directory_refuted b e id base name schema w i w1 : let st := FileStorage id base in
  is_dir (res_key st name) w = true -> ~ may_die w ->
  create_external_vector b e st (index_name name) (index_schema schema) w = (Ret (Ok i), w1) ->
  fst (create_multi_vector b e st name schema w) = Panic.
Proof. intros st D N E. exact (multi_directory b e st name schema w i w1 eq_refl D N E). Qed.
Print Assumptions C99_directory_refuted.

(** ** Examples *)
Definition st_dir w := set_dirs (fun k => w_dirs w k || comps_eqb (snd k) (snd (res_key ex_fs "x"))) w.
Definition st_multi b w := omap (fun r => match r with Ok _ => None | Er k => Some k end) (fst (create_multi_vector b LE ex_fs "x" [65] w)).
Definition st_faults n := repeat FOk n ++ [FErr KOther].
(* A multivector started on an empty disk: one failing system call gives an
   error in the first half and a panic in the second; a directory in place of
   the data file gives a panic without any failing call. *)
Example C99_example :
  map (fun n => st_multi Debug (set_faults (st_faults n) ex_w)) [1; 2; 3; 5; 6]%nat = repeat (Ret (Some KOther)) 5 /\
  map (fun n => st_multi Debug (set_faults (st_faults n) ex_w)) [8; 9; 11; 12]%nat = repeat Panic 4 /\
  st_multi Debug (st_dir ex_w) = Panic /\ st_multi Release ex_w = Ret None.
Proof. vm_compute. repeat split. Qed.
