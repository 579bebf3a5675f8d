(** Property C62: a release build does what the debug build does, unless the
    debug build panics.  Vocabulary (ProfileSpec.v): [agrees], [magrees]. *)
From Verif Require Import Base Codec Structs Views Storage StorageSpec Writers MultiViews Archives BuilderSpec PropsStorage PropsArchive PropsBuilder.
From Verif Require Import ProfileSpec ProfileFacts.
Local Open Scope list_scope.
Local Open Scope Z_scope.

(** Fields: any memory, any field (also ones with nonsensical widths). *)
Theorem C62_fields e s f v m m' ops codes :
  agrees (get_field Debug e f m) (get_field Release e f m) /\
  agrees (set_field Debug e s f v m) (set_field Release e s f v m) /\
  agrees (run_sets Debug e s ops m) (run_sets Release e s ops m) /\
  agrees (get_all Debug e s m) (get_all Release e s m) /\
  agrees (struct_eq Debug e s m m') (struct_eq Release e s m m') /\
  agrees (fill_from Debug e s m m') (fill_from Release e s m m') /\
  agrees (get_enum Debug e codes f m) (get_enum Release e codes f m).
Proof.
  split; [apply agrees_get_field|]. split; [apply agrees_set_field|]. split; [apply agrees_run_sets|].
  split; [apply agrees_get_all|]. split; [apply agrees_struct_eq|]. split; [apply agrees_fill_from|apply agrees_get_enum].
Qed.
Print Assumptions C62_fields.

(** Views and vectors: any sequence of calls. *)
Theorem C62_views e s calls v ops d :
  agrees (view_calls Debug s calls v) (view_calls Release s calls v) /\
  agrees (av_debug Debug e s v) (av_debug Release e s v) /\
  agrees (vec_run Debug e s ops d) (vec_run Release e s ops d) /\
  agrees (vec_as_view Debug d) (vec_as_view Release d).
Proof.
  split; [apply agrees_view_calls|]. split; [apply agrees_av_debug|]. split; [apply agrees_vec_run|apply agrees_vec_view].
Qed.
Print Assumptions C62_views.
Theorem C62_multi_views e size bits ts calls v :
  agrees (mav_calls Debug e size bits calls v) (mav_calls Release e size bits calls v) /\
  agrees (mav_debug Debug e size bits ts v) (mav_debug Release e size bits ts v).
Proof. split; [apply agrees_mav_calls|apply agrees_mav_debug]. Qed.
Print Assumptions C62_multi_views.

(** Storage and writers: any world, any faults. *)
Theorem C62_storage e st n sch d :
  magrees (write Debug e st n sch d) (write Release e st n sch d) /\
  magrees (read Debug e st n sch) (read Release e st n sch) /\
  magrees (create_archive Debug e st n sch) (create_archive Release e st n sch) /\
  magrees (create_external_vector Debug e st n sch) (create_external_vector Release e st n sch) /\
  magrees (create_multi_vector Debug e st n sch) (create_multi_vector Release e st n sch).
Proof.
  split; [apply agrees_storage_write|]. split; [apply agrees_storage_read|]. split; [apply agrees_create_archive|].
  split; [apply agrees_create_ev|apply agrees_create_mv].
Qed.
Print Assumptions C62_storage.
Theorem C62_writers e lim s v ops size bits ts v' ops' :
  magrees (ev_run Debug e lim s ops v) (ev_run Release e lim s ops v) /\
  magrees (ev_close Debug e v) (ev_close Release e v) /\
  magrees (mv_run Debug e lim size bits ts ops' v') (mv_run Release e lim size bits ts ops' v') /\
  magrees (mv_close Debug e lim size bits v') (mv_close Release e lim size bits v').
Proof.
  split; [apply agrees_ev_run|]. split; [apply agrees_ev_close|]. split; [apply agrees_mv_run|apply agrees_mv_close].
Qed.
Print Assumptions C62_writers.

(** Whole archives: opening, and any calls on a builder, its writers and its
    sub-builders. *)
Theorem C62_archives e lim a st ops s :
  magrees (open_archive Debug e a st) (open_archive Release e a st) /\
  magrees (builder_new Debug e a st) (builder_new Release e a st) /\
  magrees (brun Debug e lim a ops s) (brun Release e lim a ops s).
Proof. split; [apply agrees_open|]. split; [apply agrees_builder_new|apply agrees_brun]. Qed.
Print Assumptions C62_archives.

(** So what a debug build did without panicking, a release build does, too; and
    a release build panics only where the debug build does. *)
Theorem C62_carries_over {A} (debug release : M A) w : magrees debug release ->
  (fst (debug w) <> Panic -> release w = debug w) /\ (fst (release w) = Panic -> fst (debug w) = Panic).
Proof.
  intros H. destruct (H w) as [E|E]; split; intros F.
  - contradiction.
  - exact E.
  - symmetry. exact E.
  - rewrite E. exact F.
Qed.
Print Assumptions C62_carries_over.

(** The builds do differ: the size field of a damaged resource overflows (read),
    an index overflows (view). *)
Definition huge := mkSlice (repeat 255 8 ++ repeat 0 8) 16.
Example C62_differs : forall e,
  check_resource Debug e "x" [] huge (whole []) = Panic /\
  check_resource Release e "x" [] huge (whole []) = Ret (Er EUnexpectedDataSize) /\
  av_at Debug (mkStruct 8 []) huge (2 ^ 61) = Panic /\
  av_at Release (mkStruct 8 []) huge (2 ^ 61) = Ret (sl_mem huge).
Proof. intros []; repeat split; vm_compute; reflexivity. Qed.
(** A debug build that does not panic: the example of PropsBuilder.v. *)
Example C62_example : forall e, exists w1 r w2,
  builder_new Debug e ex_Arch ex_fs ex_w = (Ret (Ok ex_fs), w1) /\
  brun Debug e 20 ex_Arch ex_ops (new_bstate ex_fs) w1 = (Ret r, w2) /\ fst r = repeat true 12 /\
  brun Release e 20 ex_Arch ex_ops (new_bstate ex_fs) w1 = (Ret r, w2).
Proof.
  intros e. destruct (builder_new Debug e ex_Arch ex_fs ex_w) as [o w1] eqn:E1.
  assert (F1 : o = Ret (Ok ex_fs)).
  { transitivity (fst (builder_new Debug e ex_Arch ex_fs ex_w)); [rewrite E1; reflexivity|]. destruct e; vm_compute; reflexivity. }
  rewrite F1. clear F1.
  destruct (brun Debug e 20 ex_Arch ex_ops (new_bstate ex_fs) w1) as [o2 w2] eqn:E2.
  assert (F2 : omap fst o2 = Ret (repeat true 12)).
  { transitivity (omap fst (fst (brun Debug e 20 ex_Arch ex_ops (new_bstate ex_fs) (snd (builder_new Debug e ex_Arch ex_fs ex_w))))).
    - rewrite E1. cbn [snd]. rewrite E2. reflexivity.
    - destruct e; vm_compute; reflexivity. }
  destruct o2 as [r| | |]; try discriminate F2. injection F2 as F2.
  exists w1, r, w2. split; [reflexivity|]. split; [exact E2|]. split; [exact F2|].
  rewrite (proj1 (C62_carries_over _ _ w1 (agrees_brun e 20 ex_Arch ex_ops (new_bstate ex_fs)))); [exact E2|].
  rewrite E2. discriminate.
Qed.
