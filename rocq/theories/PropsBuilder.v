(** Properties C45 and C50: archive builders.
    Vocabulary (BuilderSpec.v): [brun] (calls on a builder, its writers and its
    sub-builders), [history] (each resource at most once, in any order, in-range
    values; gives the [plan] of what has been set), [finished] (every writer is
    closed), [sufficient] (everything required is set), [shows_plan] (an opened
    archive shows exactly what has been set), [left_plan] (what may be seen after
    a call that did not work). *)
From Verif Require Import Base BaseFacts Codec CodecSpec CodecFacts Structs StructsSpec StructsFacts Views ViewsSpec ViewsFacts.
From Verif Require Import Storage PathFacts StorageSpec StorageFacts StorageMore StorageUse PropsStorage Writers WritersSpec HandleFacts EncodeFacts.
From Verif Require Import ElsewhereFacts ExtVecFacts ExtVecUse MultiViews MultiSpec MultiViewFacts MultiViewUse MultiVecFacts MultiVecUse.
From Verif Require Import Archives ArchiveSpec ArchiveFacts PropsArchive BuilderSpec BuilderFacts BuilderUse BuilderCrash.
Local Open Scope list_scope.
Local Open Scope Z_scope.

(** C45: a new builder, any calls in any order, everything closed: if all calls
    worked, opening gives exactly what was set, or an error if something required
    was not set.  Through the same storage, and for a new process.  The first
    of the two builds and byte orders is the writer's. *)
Theorem C45_build_open_partial b e b' e' lim a st w st' w1 ops A flags s' w2 :
  wf_archive (is_file st) a -> maps_ok w -> unused_storage st w ->
  builder_new b e a st w = (Ret (Ok st'), w1) ->
  history (is_file st) a no_plan ops A -> finished A ->
  brun b e lim a ops (new_bstate st') w1 = (Ret (flags, s'), w2) -> Forall (eq true) flags ->
  (exists r w3, open_archive b' e' a st (set_faults [] w2) = (Ret r, w3) /\
     ((exists x, r = Ok x) <-> sufficient a A) /\ forall x, r = Ok x -> shows_plan a A x) /\
  (forall id base, st = FileStorage id base -> exists r, fresh_open b' e' a base w2 = Ret r /\
     ((exists x, r = Ok x) <-> sufficient a A) /\ forall x, r = Ok x -> shows_plan a A x).
Proof. exact (build_open b e b' e' lim a st w st' w1 ops A flags s' w2). Qed.
Print Assumptions C45_build_open_partial.

(** The test archive of archive.rs in a directory. *)
Ltac name_solve := split; [discriminate|split; reflexivity].
Ltac schema_solve := unfold schema_ok; split; [reflexivity|]; split; [cbn; repeat (constructor; [unfold is_byte; lia|]); constructor|];
  split; [unfold isize_max; vm_compute; congruence|discriminate].
Ltac nodup_solve := cbn; repeat (constructor; [simpl; intuition discriminate|]); constructor.
Lemma ex_Ts_wf : wf_vdesc ex_Ts.
Proof.
  split; [|nodup_solve]. repeat (constructor; [split; [unfold is_byte; simpl; lia|apply wf_struct_dec; reflexivity]|]). constructor.
Qed.
Lemma ex_SubArch_wf file : wf_archive file ex_SubArch.
Proof.
  apply wf_eq. cbn [ad_name ad_schema ad_structs ad_vectors ad_multis ad_raws ad_subs ex_SubArch].
  split; [name_solve|]. split; [destruct file; schema_solve|]. split; [nodup_solve|].
  split; [constructor|]. split; [constructor|]. split; [constructor|]. split; [|split; [constructor|constructor]].
  constructor; [|constructor]. split; [name_solve|destruct file; schema_solve].
Qed.
Lemma ex_Arch_wf file : wf_archive file ex_Arch.
Proof.
  assert (Wa : wf_struct ex_A) by (apply wf_struct_dec; reflexivity).
  apply wf_eq. cbn [ad_name ad_schema ad_structs ad_vectors ad_multis ad_raws ad_subs ex_Arch].
  split; [name_solve|]. split; [destruct file; schema_solve|]. split; [nodup_solve|].
  split; [repeat (constructor; [split; [name_solve|destruct file; schema_solve]|]); constructor|].
  split; [repeat (constructor; [split; [split; [name_solve|destruct file; schema_solve]|exact Wa]|]); constructor|].
  split.
  { repeat (constructor; [split; [name_solve|]; split; [reflexivity|]; split;
      [split; [destruct file; schema_solve|unfold isize_max; vm_compute; congruence]|];
      split; [apply wf_struct_dec; reflexivity|]; split; [apply ex_Ts_wf|unfold isize_max; vm_compute; congruence]|]). constructor. }
  split; [repeat (constructor; [split; [name_solve|destruct file; schema_solve]|]); constructor|].
  split; [nodup_solve|]. repeat (constructor; [split; [name_solve|apply ex_SubArch_wf]|]). constructor.
Qed.

Definition ex_ops : list bop :=
  [BSubNew 0; BMulStart 0; BVecStart 0; BSub 0 (BRaw 0 [8; 8]); BMulGrow 0 [(1%nat, [(0%nat, 5); (1%nat, 6)])]; BVecGrow 0 [(0%nat, 1); (1%nat, 2)];
   BStruct 0 [1; 2; 3; 4]; BVecGrow 0 [(1%nat, 4); (0%nat, 3)]; BVecClose 0; BRaw 0 [9]; BMulGrow 0 []; BMulClose 0].
Definition ex_plan : plan :=
  pl_mul 0 (MClosed [[(1%nat, [(0%nat, 5); (1%nat, 6)])]; []]) (pl_mul 0 (MOpen [[(1%nat, [(0%nat, 5); (1%nat, 6)])]; []])
 (pl_raw 0 (Some [9]) (pl_vec 0 (VClosed [[(0%nat, 1); (1%nat, 2)]; [(1%nat, 4); (0%nat, 3)]]) (pl_vec 0 (VOpen [[(0%nat, 1); (1%nat, 2)]; [(1%nat, 4); (0%nat, 3)]])
 (pl_struct 0 (Some [1; 2; 3; 4]) (pl_vec 0 (VOpen [[(0%nat, 1); (1%nat, 2)]]) (pl_mul 0 (MOpen [[(1%nat, [(0%nat, 5); (1%nat, 6)])]])
 (pl_sub 0 (Some (pl_raw 0 (Some [8; 8]) no_plan)) (pl_vec 0 (VOpen []) (pl_mul 0 (MOpen []) (pl_sub 0 (Some no_plan) no_plan))))))))))).
Ltac range_solve := unfold isize_max; vm_compute; congruence.
Ltac bytes_solve := cbn; repeat (constructor; [unfold is_byte; lia|]); constructor.
Ltac sets_solve := unfold sets_ok; repeat (constructor; [cbn; split; lia|]); constructor.
Ltac items_solve := unfold items_ok; repeat (constructor; [split; [cbn; lia|sets_solve]|]); constructor.
Lemma ex_history : history true ex_Arch no_plan ex_ops ex_plan.
Proof.
  unfold ex_ops.
  eapply history_cons; [eapply may_sub_new; reflexivity|].
  eapply history_cons; [eapply may_mul_start; reflexivity|].
  eapply history_cons; [eapply may_vec_start; reflexivity|].
  eapply history_cons; [eapply may_sub; [reflexivity|reflexivity|eapply may_raw; [reflexivity|reflexivity|split; [bytes_solve|range_solve]]]|].
  eapply history_cons; [eapply may_mul_grow; [reflexivity|reflexivity|items_solve|reflexivity|range_solve|range_solve]|].
  eapply history_cons; [eapply may_vec_grow; [reflexivity|reflexivity|sets_solve|range_solve]|].
  eapply history_cons; [eapply may_struct; [reflexivity|reflexivity|bytes_solve|range_solve|range_solve]|].
  eapply history_cons; [eapply may_vec_grow; [reflexivity|reflexivity|sets_solve|range_solve]|].
  eapply history_cons; [eapply may_vec_close; reflexivity|].
  eapply history_cons; [eapply may_raw; [reflexivity|reflexivity|split; [bytes_solve|range_solve]]|].
  eapply history_cons; [eapply may_mul_grow; [reflexivity|reflexivity|items_solve|reflexivity|range_solve|range_solve]|].
  eapply history_cons; [eapply may_mul_close; reflexivity|]. apply history_nil.
Qed.
Lemma ex_finished : finished ex_plan.
Proof.
  constructor.
  - intros [|k] l; discriminate.
  - intros [|k] l; discriminate.
  - intros [|k] A; [|discriminate]. intros [= <-]. constructor; intros k; discriminate.
Qed.
Lemma ex_sufficient : sufficient ex_Arch ex_plan.
Proof.
  cbn. repeat split; try (intros [|[|k]] r; cbn; intros [= <-]; discriminate); try discriminate;
    try (intros [|[|[|k]]] r; cbn; intros H; inversion H; subst; cbn; try discriminate; congruence).
Qed.

Definition ex_build (b : build) (e : endian) (st : storage) (ops : list bop) (w : world) :=
  match builder_new b e ex_Arch st w with
  | (Ret (Ok st'), w1) => brun b e 64 ex_Arch ops (new_bstate st') w1
  | (_, w1) => (Panic, w1)
  end.
Example C45_example : forall b e,
  unused_storage ex_fs ex_w /\
  omap fst (fst (ex_build b e ex_fs ex_ops ex_w)) = Ret (repeat true 12) /\
  glances (fresh_open b e ex_Arch "/d" (snd (ex_build b e ex_fs ex_ops ex_w))) =
  Ret (Ok ([Some [1; 2; 3; 4]; None], [Some [1; 0; 2; 0; 3; 0; 4; 0]; None],
           [Some ([0; 0; 0; 0; 5; 0; 0; 0; 5; 0; 0; 0], [1; 5; 0; 6; 0]); None], [Some [9]; None],
           [Some [Some [8; 8]]; None])).
Proof.
  intros b e. split; [split; [simpl; lia|simpl; auto]|]. destruct b, e; vm_compute; split; reflexivity.
Qed.
(** Without the last required resource there is an error. *)
Example C45_example_missing : forall b e,
  omap fst (fst (ex_build b e ex_fs (firstn 9 ex_ops) ex_w)) = Ret (repeat true 9) /\
  glances (fresh_open b e ex_Arch "/d" (snd (ex_build b e ex_fs (firstn 9 ex_ops ++ [BMulClose 0]) ex_w))) =
  Ret (Er (EIo KNotFound "r")).
Proof. intros b e. destruct b, e; vm_compute; split; reflexivity. Qed.

(** Not for sub-archives in memory: every subdir of a memory storage is a new
    storage, so a sub-archive that was built is not found.  An archive with an
    optional sub-archive opens without it, one with a required sub-archive never
    opens. *)
Definition ex_nest (opt : bool) := mkArchive "Nest" [65] [] [] [] [] [("arch"%string, ex_SubArch, opt)].
Definition ex_nest_build (b : build) (e : endian) (opt : bool) :=
  match builder_new b e (ex_nest opt) ex_ms ex_w with
  | (Ret (Ok st'), w1) => brun b e 64 (ex_nest opt) [BSubNew 0; BSub 0 (BRaw 0 [8; 8])] (new_bstate st') w1
  | (_, w1) => (Panic, w1)
  end.
Theorem C45_memory_refuted : forall b e opt,
  wf_archive false (ex_nest opt) /\ unused_storage ex_ms ex_w /\
  omap fst (fst (ex_nest_build b e opt)) = Ret [true; true] /\
  let r := fst (open_archive b e (ex_nest opt) ex_ms (snd (ex_nest_build b e opt))) in
  if opt then r = Ret (Ok (mkOpened [] [] [] [] [None])) else r = Ret (Er (EIo KNotFound "SubArch.archive")).
Proof.
  intros b e opt. split; [|split; [|split]].
  - apply wf_eq. cbn [ad_name ad_schema ad_structs ad_vectors ad_multis ad_raws ad_subs ex_nest].
    split; [name_solve|]. split; [schema_solve|]. split; [nodup_solve|].
    split; [constructor|]. split; [constructor|]. split; [constructor|]. split; [constructor|].
    split; [nodup_solve|]. constructor; [split; [name_solve|apply ex_SubArch_wf]|constructor].
  - split; [simpl; lia|]. simpl. auto.
  - destruct b, e, opt; vm_compute; reflexivity.
  - destruct b, e, opt; vm_compute; reflexivity.
Qed.
Print Assumptions C45_memory_refuted.

(** * C50 *)
(** The calls [ops] have worked, then nothing more happens, or one more call
    fails or the process dies in it (at any system call, see [w_faults]).  A new
    process can open the directory or gets an error, it never panics; if it opens,
    everything required has at least been started, complete data is shown as it
    was set, the interrupted call shows its own data or nothing, and vectors that
    are not closed are empty.  Missing from the intended property: vectors and
    multivectors that are open. *)
Theorem C50_stop_partial b e b' e' lim a id base w st' w1 ops A flags s' w2 A' w3 : let st := FileStorage id base in
  wf_archive true a -> maps_ok w -> unused_storage st w ->
  builder_new b e a st w = (Ret (Ok st'), w1) ->
  history true a no_plan ops A ->
  brun b e lim a ops (new_bstate st') w1 = (Ret (flags, s'), w2) -> Forall (eq true) flags ->
  (A' = A /\ w3 = w2 \/
   exists o oc, may true a A o A' /\ bstep b e lim a o s' w2 = (oc, w3) /\ forall s'', oc <> Ret (true, s'')) ->
  disk_ok w3 ->
  exists r, fresh_open b' e' a base w3 = Ret r /\
    (forall x, r = Ok x -> sufficient a A' /\ left_plan a A A' x) /\
    (finished A -> sufficient a A -> exists x, r = Ok x).
Proof. exact (build_stops b e b' e' lim a id base w st' w1 ops A flags s' w2 A' w3). Qed.
Print Assumptions C50_stop_partial.

(** The same for the creation of the builder. *)
Theorem C50_new_partial b e b' e' a id base w o w1 : let st := FileStorage id base in
  wf_archive true a -> unused_storage st w -> builder_new b e a st w = (o, w1) -> disk_ok w1 ->
  exists r, fresh_open b' e' a base w1 = Ret r /\
    forall x, r = Ok x -> sufficient a no_plan /\ left_plan a no_plan no_plan x.
Proof. exact (new_stops b e b' e' a id base w o w1). Qed.
Print Assumptions C50_new_partial.

(** The process dies at the 83rd system call, in the last call: all of the first
    10 calls have worked.  At the 78th, the vector is empty for a reader. *)
Definition ex_stop : list bop :=
  [BSubNew 0; BSub 0 (BRaw 0 [8; 8]); BStruct 0 [1; 2; 3; 4]; BRaw 0 [9]; BMulStart 0; BVecStart 0;
   BMulGrow 0 [(1%nat, [(0%nat, 5); (1%nat, 6)])]; BMulClose 0; BVecGrow 0 [(0%nat, 1); (1%nat, 2)];
   BVecGrow 0 [(1%nat, 4); (0%nat, 3)]; BVecClose 0].
Definition ex_stop_plan : plan :=
  pl_vec 0 (VOpen [[(0%nat, 1); (1%nat, 2)]; [(1%nat, 4); (0%nat, 3)]]) (pl_vec 0 (VOpen [[(0%nat, 1); (1%nat, 2)]])
 (pl_mul 0 (MClosed [[(1%nat, [(0%nat, 5); (1%nat, 6)])]]) (pl_mul 0 (MOpen [[(1%nat, [(0%nat, 5); (1%nat, 6)])]])
 (pl_vec 0 (VOpen []) (pl_mul 0 (MOpen []) (pl_raw 0 (Some [9]) (pl_struct 0 (Some [1; 2; 3; 4])
 (pl_sub 0 (Some (pl_raw 0 (Some [8; 8]) no_plan)) (pl_sub 0 (Some no_plan) no_plan))))))))).
Lemma ex_stop_history : history true ex_Arch no_plan (firstn 10 ex_stop) ex_stop_plan /\
  may true ex_Arch ex_stop_plan (BVecClose 0) (pl_vec 0 (VClosed [[(0%nat, 1); (1%nat, 2)]; [(1%nat, 4); (0%nat, 3)]]) ex_stop_plan).
Proof.
  split; [|eapply may_vec_close; reflexivity]. unfold ex_stop.
  eapply history_cons; [eapply may_sub_new; reflexivity|].
  eapply history_cons; [eapply may_sub; [reflexivity|reflexivity|eapply may_raw; [reflexivity|reflexivity|split; [bytes_solve|range_solve]]]|].
  eapply history_cons; [eapply may_struct; [reflexivity|reflexivity|bytes_solve|range_solve|range_solve]|].
  eapply history_cons; [eapply may_raw; [reflexivity|reflexivity|split; [bytes_solve|range_solve]]|].
  eapply history_cons; [eapply may_mul_start; reflexivity|].
  eapply history_cons; [eapply may_vec_start; reflexivity|].
  eapply history_cons; [eapply may_mul_grow; [reflexivity|reflexivity|items_solve|reflexivity|range_solve|range_solve]|].
  eapply history_cons; [eapply may_mul_close; reflexivity|].
  eapply history_cons; [eapply may_vec_grow; [reflexivity|reflexivity|sets_solve|range_solve]|].
  eapply history_cons; [eapply may_vec_grow; [reflexivity|reflexivity|sets_solve|range_solve]|].
  apply history_nil.
Qed.
Definition ex_dying (n : nat) := set_faults (repeat FOk n ++ [FCrash 0]) ex_w.
Example C50_example : forall b e,
  omap fst (fst (ex_build b e ex_fs (firstn 10 ex_stop) (ex_dying 82))) = Ret (repeat true 10) /\
  fst (ex_build b e ex_fs ex_stop (ex_dying 82)) = Crash /\
  glances (fresh_open b e ex_Arch "/d" (snd (ex_build b e ex_fs ex_stop (ex_dying 82)))) =
  Ret (Ok ([Some [1; 2; 3; 4]; None], [Some [1; 0; 2; 0; 3; 0; 4; 0]; None],
           [Some ([0; 0; 0; 0; 5; 0; 0; 0], [1; 5; 0; 6; 0]); None], [Some [9]; None], [Some [Some [8; 8]]; None])).
Proof. intros b e. destruct b, e; vm_compute; repeat split. Qed.
Example C50_new_example : forall b e,
  builder_new b e ex_Arch ex_fs (ex_dying 5) = (Crash, snd (builder_new b e ex_Arch ex_fs (ex_dying 5))) /\
  fresh_open b e ex_Arch "/d" (snd (builder_new b e ex_Arch ex_fs (ex_dying 5))) = Ret (Er (EIo KNotFound "Arch.archive")).
Proof. intros b e. destruct b, e; split; vm_compute; reflexivity. Qed.
(** A required vector with two elements is shown without elements: nothing tells
    this archive from a complete one. *)
Theorem C50_vector_refuted : forall b e,
  wf_archive true ex_Arch /\ unused_storage ex_fs (ex_dying 77) /\
  omap fst (fst (ex_build b e ex_fs (firstn 10 ex_stop) (ex_dying 77))) = Ret (repeat true 10) /\
  fst (ex_build b e ex_fs ex_stop (ex_dying 77)) = Crash /\
  glances (fresh_open b e ex_Arch "/d" (snd (ex_build b e ex_fs ex_stop (ex_dying 77)))) =
  Ret (Ok ([Some [1; 2; 3; 4]; None], [Some []; None],
           [Some ([0; 0; 0; 0; 5; 0; 0; 0], [1; 5; 0; 6; 0]); None], [Some [9]; None], [Some [Some [8; 8]]; None])).
Proof.
  intros b e. split; [apply ex_Arch_wf|]. split; [split; [simpl; lia|simpl; auto]|]. destruct b, e; vm_compute; repeat split.
Qed.
Print Assumptions C50_vector_refuted.
(** A multivector whose data is 8 bytes: the archive opens, the only bucket cannot
    be accessed. *)
Definition ex_pairs : vdesc := [(7, mkStruct 3 [mkField U32 0 24])].
Definition ex_Torn := mkArchive "Torn" [65] [] [] [mkMulti "mv" ex_pairs (str "mv schema") "mv_index" 4 32 false] [] [].
Definition ex_torn (b : build) (e : endian) (w : world) :=
  match builder_new b e ex_Torn ex_fs w with
  | (Ret (Ok st'), w1) =>
      brun b e 64 ex_Torn [BMulStart 0; BMulGrow 0 [(0%nat, [(0%nat, 5)]); (0%nat, [(0%nat, 6)])]; BMulClose 0] (new_bstate st') w1
  | (_, w1) => (Panic, w1)
  end.
Theorem C50_torn_refuted : forall b e,
  wf_archive true ex_Torn /\ unused_storage ex_fs (ex_dying 28) /\
  fst (ex_torn b e (ex_dying 28)) = Crash /\
  match fresh_open b e ex_Torn "/d" (snd (ex_torn b e (ex_dying 28))) with
  | Ret (Ok x) =>
      match get_multi x 0 with
      | Some v => mav_len b 4 32 v = Ret 1 /\ mav_at b e 4 32 v 0 = Panic
      | None => False
      end
  | _ => False
  end.
Proof.
  intros b e. split; [|split; [split; [simpl; lia|simpl; auto]|destruct b, e; vm_compute; repeat split]].
  apply wf_eq. cbn [ad_name ad_schema ad_structs ad_vectors ad_multis ad_raws ad_subs ex_Torn].
  split; [name_solve|]. split; [schema_solve|]. split; [nodup_solve|].
  split; [constructor|]. split; [constructor|]. split; [|split; [constructor|split; [constructor|constructor]]].
  constructor; [|constructor]. split; [name_solve|]. split; [reflexivity|].
  split; [split; [schema_solve|unfold isize_max; vm_compute; congruence]|].
  split; [apply wf_struct_dec; reflexivity|]. split; [|unfold isize_max; vm_compute; congruence].
  split; [|nodup_solve]. repeat (constructor; [split; [unfold is_byte; simpl; lia|apply wf_struct_dec; reflexivity]|]). constructor.
Qed.
Print Assumptions C50_torn_refuted.

(** C71: after a build (C45), the getters return what was built. *)
Theorem C71_built a A x : shows_plan a A x ->
  (forall k r, nth_error (ad_structs a) k = Some r ->
     match get_struct x k, pl_structs A k with
     | Some m, Some d => firstn (length d) m = d
     | None, None => True
     | _, _ => False
     end) /\
  (forall k r, nth_error (ad_vectors a) k = Some r -> shows_vec r (pl_vecs A k) (get_vector x k)) /\
  (forall k r, nth_error (ad_multis a) k = Some r ->
     match get_multi x k, pl_muls A k with
     | Some v, MClosed l => mav_shows (mr_types r) (mr_size r) (mr_bits r) v (buckets (mr_types r) l)
     | None, MUnset => True
     | _, _ => False
     end) /\
  (forall k r, nth_error (ad_raws a) k = Some r -> option_map sl_bytes (get_raw x k) = pl_raws A k) /\
  (forall k n a' opt, nth_error (ad_subs a) k = Some (n, a', opt) ->
     match get_sub x k with
     | Some x' => exists A', pl_subs A k = Some A' /\ sufficient a' A' /\ shows_plan a' A' x'
     | None => forall A', pl_subs A k = Some A' -> ~ sufficient a' A'
     end).
Proof. exact (getters_show_plan a A x). Qed.
Print Assumptions C71_built.

Example C71_built_example : forall b e,
  match fresh_open b e ex_Arch "/d" (snd (ex_build b e ex_fs ex_ops ex_w)) with
  | Ret (Ok x) =>
      option_map (firstn 4) (get_struct x 0) = Some [1; 2; 3; 4] /\ get_struct x 1 = None /\
      option_map sl_bytes (get_vector x 0) = Some [1; 0; 2; 0; 3; 0; 4; 0] /\
      option_map (fun v => let 'mkMav i d := v in sl_bytes d) (get_multi x 0) = Some [1; 5; 0; 6; 0] /\ get_multi x 1 = None /\
      option_map sl_bytes (get_raw x 0) = Some [9] /\
      option_map (fun y => option_map sl_bytes (get_raw y 0)) (get_sub x 0) = Some (Some [8; 8])
  | _ => False
  end.
Proof. intros b e. destruct b, e; vm_compute; repeat split. Qed.
