(** Property C92: external vectors and multivectors of processes that run at once.
    Vocabulary: [job], [vector_session], [multi_session], [pool_run] in Conc.v;
    [job_typed], [processes_ok], [ended], [final] in ConcSpec.v; [beside], [spares],
    [process_ok] in ConcFail.v and ConcFailSpec.v; [elements], [array_of] in
    WritersSpec.v; [buckets], [mav_shows] in MultiSpec.v. *)
From Verif Require Import Base BaseFacts Codec CodecSpec Structs StructsSpec StructsFacts Views ViewsSpec.
From Verif Require Import Storage PathFacts StorageSpec StorageFacts StorageMore PropsStorage.
From Verif Require Import Writers WritersSpec PropsExtVec MultiViews MultiSpec MultiViewUse PropsMultiViews PropsMultiVec.
From Verif Require Import Conc ConcSpec ConcFacts ConcVec ConcUse PropsConc ConcFail ConcFailSpec ConcFailFacts ConcFailUse ConcVecUse.
Local Open Scope list_scope.
Local Open Scope Z_scope.

(** ** The model of close in processes lacks only the reading at its end, with any
    storage and all failures. *)
Theorem C92_close b e v w :
  match ev_finish b e v w with
  | (Ret (Ok _), w') => ev_close b e v w = read b e (h_storage (ev_handle v)) (h_name (ev_handle v)) (h_schema (ev_handle v)) w'
  | (Ret (Er x), w') => ev_close b e v w = (Ret (Er x), w')
  | (Panic, w') => ev_close b e v w = (Panic, w')
  | (UB, w') => ev_close b e v w = (UB, w')
  | (Crash, w') => ev_close b e v w = (Crash, w')
  end.
Proof. apply close_vector. Qed.
Print Assumptions C92_close.

(** ** A vector is a resource that is written in parts: there are parts that make up
    the bytes of the elements, and with any failures the life of the vector is that
    of a handle with these writes, except that every failure after its creation is a
    panic. *)
Theorem C92_calls b e lim s base name schema els : job_typed (JVector b e lim s base name schema els) ->
  exists cs, List.concat cs = elements_bytes s els /\ forall w,
    vector_session b e lim s (FileStorage 0 base) name schema els w =
    match create_handle b e (FileStorage 0 base) name schema w with
    | (Ret (Er k), w1) => (Ret (Er (EIo k name)), w1)
    | (Ret (Ok h), w1) =>
        match (let? h := handle_writes b cs h in handle_finish b e h) w1 with
        | (Ret (Ok _), w2) => (Ret (Ok tt), w2)
        | (Ret (Er _), w2) | (Panic, w2) => (Panic, w2)
        | (UB, w2) => (UB, w2)
        | (Crash, w2) => (Crash, w2)
        end
    | (Panic, w1) => (Panic, w1)
    | (UB, w1) => (UB, w1)
    | (Crash, w1) => (Crash, w1)
    end.
Proof. apply vector_calls. Qed.
Print Assumptions C92_calls.
(** A multivector returns an error only if its index cannot be created; if its data
    cannot be created, or later, a failure is a panic. *)
Theorem C92_errors b e lim size bits ts base name schema els w r w' : job_typed (JMulti b e lim size bits ts base name schema els) ->
  multi_session b e lim size bits ts (FileStorage 0 base) name schema els w = (Ret r, w') ->
  r = Ok tt \/ exists k, r = Er (EIo k name) /\
    create_handle b e (FileStorage 0 base) (index_name name) (index_schema schema) w = (Ret (Er k), w').
Proof. apply multi_errors. Qed.
Print Assumptions C92_errors.

(** ** Processes of any builds, byte orders and flush limits that agree about the
    contents of files: when all are done, every vector and multivector of the calls
    that were done gives back its elements. *)
Theorem C92_agree pss w w' os (C : key -> list Z) : processes_ok w pss ->
  (forall j k c, In j (List.concat pss) -> In (k, c) (job_files j) -> c = C k) ->
  pool_run w (map jobs_p pss) w' (map Done os) ->
  exists ds, Forall2 (fun js x => ended w' js (fst x) (snd x)) pss (combine ds os) /\
    List.length ds = List.length pss /\ List.length os = List.length pss /\
    (forall d b e lim s base name schema els b' e', In d ds -> In (JVector b e lim s base name schema els) d ->
      schema_ok (FileStorage 0 base) schema ->
      exists sl, fresh_read b' e' base name schema w' = Ret (Ok sl) /\ slice_ok sl /\
        records s (sl_bytes sl) = elements s els /\ array_of s (sl_bytes sl) (elements s els)) /\
    (forall d b e lim size bits ts base name schema els b' e', In d ds -> In (JMulti b e lim size bits ts base name schema els) d ->
      mv_schema_ok (FileStorage 0 base) schema ->
      exists iv dat, fresh_read b' e' base (index_name name) (index_schema schema) w' = Ret (Ok iv) /\
        fresh_read b' e' base name schema w' = Ret (Ok dat) /\ mav_shows ts size bits (mkMav iv dat) (buckets ts els)).
Proof.
  intros Ok Ag R. destruct (agree_holds pss w w' os C Ok Ag R) as (ds & D1 & D2 & D3 & D4). exists ds.
  split; [exact D1|]. split; [exact D2|]. split; [exact D3|]. split.
  - intros d b e lim s base name schema els b' e' Hd Hj Sok. destruct (D4 d _ Hd Hj) as (Ho & Ty).
    exact (vector_read _ b e lim s base name schema els w' eq_refl Ho Ty Sok b' e').
  - intros d b e lim size bits ts base name schema els b' e' Hd Hj Sok. destruct (D4 d _ Hd Hj) as (Ho & Ty).
    exact (multi_read _ b e lim size bits ts base name schema els w' eq_refl Ho Ty Sok b' e').
Qed.
Print Assumptions C92_agree.

(** ** And beside anything that spares the files of the process, if it succeeds: a
    vector or multivector whose files are not written again by a later call gives
    back its elements, whatever has failed and died next to it. *)
Theorem C92_beside_vector js w w' b e lim s base name schema els b' e' : process_ok w js ->
  beside (spares js) w (jobs_p js) w' (Done (Ret (Ok tt))) ->
  let j := JVector b e lim s base name schema els in
  In j js -> (forall k c, In (k, c) (job_files j) -> final js k = Some c) -> schema_ok (FileStorage 0 base) schema ->
  exists sl, fresh_read b' e' base name schema w' = Ret (Ok sl) /\ slice_ok sl /\
    records s (sl_bytes sl) = elements s els /\ array_of s (sl_bytes sl) (elements s els).
Proof.
  intros Ok R j Hj H Sok. destruct (beside_holds js w w' j Ok R Hj H) as (Ho & Ty).
  exact (vector_read j b e lim s base name schema els w' eq_refl Ho Ty Sok b' e').
Qed.
Print Assumptions C92_beside_vector.
Theorem C92_beside_multi js w w' b e lim size bits ts base name schema els b' e' : process_ok w js ->
  beside (spares js) w (jobs_p js) w' (Done (Ret (Ok tt))) ->
  let j := JMulti b e lim size bits ts base name schema els in
  In j js -> (forall k c, In (k, c) (job_files j) -> final js k = Some c) -> mv_schema_ok (FileStorage 0 base) schema ->
  exists iv dat, fresh_read b' e' base (index_name name) (index_schema schema) w' = Ret (Ok iv) /\
    fresh_read b' e' base name schema w' = Ret (Ok dat) /\ mav_shows ts size bits (mkMav iv dat) (buckets ts els).
Proof.
  intros Ok R j Hj H Sok. destruct (beside_holds js w w' j Ok R Hj H) as (Ho & Ty).
  exact (multi_read j b e lim size bits ts base name schema els w' eq_refl Ho Ty Sok b' e').
Qed.
Print Assumptions C92_beside_multi.

(** ** Examples *)
(** Four elements and three lists of items; two processes that differ in build,
    byte order and flush limits, so that one writes everything at the end and the
    other one in parts. *)
Definition cv_els : list (list (nat * Z)) := all_sets ex_ops.
Definition cv_items : list (list (nat * list (nat * Z))) := mv_all mx_ops.
Definition cv_jobs b e lim : list job :=
  [JVector b e lim ex_struct "/d" "x" ex_schema cv_els; JMulti b e lim 4 32 ex_ts "/d" "m" ex_schema cv_items].
Definition cv_procs : list (list job) := [cv_jobs Debug LE 1000; cv_jobs Release BE 9].
Definition cv_order : list nat := List.concat (repeat [0; 1; 1]%nat 60).
Definition cv_run (s : list nat) := schedule s ex_w (map jobs_p cv_procs).
Definition cv_contents (k : key) : list Z :=
  if key_eqb k (key_of "/d/x") then resource_bytes (elements_bytes ex_struct cv_els)
  else if key_eqb k (key_of "/d/m_index") then resource_bytes (index_bytes 4 32 ex_ts cv_items)
  else if key_eqb k (key_of "/d/m") then resource_bytes (List.concat (map (items_bytes ex_ts) cv_items))
  else if key_eqb k (key_of "/d/m_index.schema") then index_schema ex_schema else ex_schema.
Lemma cv_sets : Forall (sets_ok ex_struct) cv_els.
Proof. repeat (constructor; [repeat (constructor; [split; cbn; lia|]); constructor|]). constructor. Qed.
Lemma cv_items_ok : Forall (items_ok ex_ts) cv_items.
Proof.
  assert (H := mx_ops_ok). unfold cv_items. revert H. unfold mx_ops. intros H.
  repeat match goal with H : Forall _ (_ :: _) |- _ => inversion H; clear H; subst end.
  cbn [mv_all]. repeat (constructor; [assumption|]). constructor.
Qed.
Lemma cv_vector b e lim name : job_typed (JVector b e lim ex_struct "/d" name ex_schema cv_els).
Proof. split; [exact ex_struct_wf|]. split; [exact cv_sets|]. vm_compute. discriminate. Qed.
Lemma cv_multi b e lim name : job_typed (JMulti b e lim 4 32 ex_ts "/d" name ex_schema cv_items).
Proof.
  split; [exact ex_index_wf|]. split; [exact ex_ts_wf|]. split; [exact cv_items_ok|].
  split; [vm_compute; reflexivity|]. split; vm_compute; discriminate.
Qed.
Lemma cv_ok : processes_ok ex_w cv_procs.
Proof.
  assert (V1 := cv_vector Debug LE 1000 "x"). assert (V2 := cv_vector Release BE 9 "x").
  assert (M1 := cv_multi Debug LE 1000 "m"). assert (M2 := cv_multi Release BE 9 "m").
  conc_solve.
Qed.
Example C92_example :
  processes_ok ex_w cv_procs /\
  (forall j k c, In j (List.concat cv_procs) -> In (k, c) (job_files j) -> c = cv_contents k) /\
  snd (cv_run cv_order) = map Done [Ret (Ok tt); Ret (Ok tt)] /\
  (forall s, pool_run ex_w (map jobs_p cv_procs) (fst (cv_run s)) (snd (cv_run s))) /\
  elements ex_struct cv_els = ex_records /\ buckets ex_ts cv_items = ex_buckets /\
  seen_data (fresh_read Debug LE "/d" "x" ex_schema (fst (cv_run cv_order))) = Ok (elements_bytes ex_struct cv_els) /\
  elements_bytes ex_struct cv_els = [1; 210; 1; 0; 0; 128; 0; 0; 0; 1; 240; 0] /\
  seen_data (fresh_read Debug LE "/d" "m_index" (index_schema ex_schema) (fst (cv_run cv_order))) = Ok (index_bytes 4 32 ex_ts cv_items).
Proof.
  split; [exact cv_ok|]. split.
  { intros j k c Hj Hk. simpl in Hj. repeat destruct Hj as [<-|Hj]; try destruct Hj;
      simpl in Hk; repeat destruct Hk as [[= <- <-]|Hk]; try destruct Hk; vm_compute; reflexivity. }
  split; [vm_compute; reflexivity|]. split; [intros s; apply schedule_run|].
  repeat (split; [vm_compute; reflexivity|]). vm_compute. reflexivity.
Qed.
(** The steps of one process: directory, schema, size of nothing, parts.  A part of
    the first vector cannot be written: its process panics, the file stays without
    its size; the other process is not concerned. *)
Definition cv_two : list (list job) :=
  [[JVector Debug LE 9 ex_struct "/d" "x" ex_schema cv_els];
   [JVector Release BE 1000 ex_struct "/d" "y" ex_schema cv_els; JMulti Debug LE 9 4 32 ex_ts "/d" "m" ex_schema cv_items]].
Definition cv_moves : list move := repeat (Go 0%nat) 10 ++ repeat (Go 1%nat) 10 ++ [Fail 0%nat] ++ repeat (Go 1%nat) 60.
Definition cv_fail := fschedule cv_moves ex_w (map jobs_p cv_two).
Lemma cv_two_ok : processes_ok ex_w cv_two.
Proof.
  assert (V1 := cv_vector Debug LE 9 "x"). assert (V2 := cv_vector Release BE 1000 "y"). assert (M1 := cv_multi Debug LE 9 "m").
  conc_solve.
Qed.
Example C92_fail_example :
  process_ok ex_w [JVector Release BE 1000 ex_struct "/d" "y" ex_schema cv_els; JMulti Debug LE 9 4 32 ex_ts "/d" "m" ex_schema cv_items] /\
  snd cv_fail = [Done Panic; Done (Ret (Ok tt))] /\
  fpool_run ex_w (map jobs_p cv_two) (fst cv_fail) (snd cv_fail) /\
  w_files (fst cv_fail) (key_of "/d/x") = Some (zeros 8 ++ [1; 210; 1]) /\
  seen_data (fresh_read Debug LE "/d" "y" ex_schema (fst cv_fail)) = Ok (elements_bytes ex_struct cv_els) /\
  seen_data (fresh_read Debug LE "/d" "m" ex_schema (fst cv_fail)) = Ok (List.concat (map (items_bytes ex_ts) cv_items)).
Proof.
  split.
  { destruct cv_two_ok as (H1 & H2). split; [intros j Hj; apply H1; right; exact Hj|].
    split; [intros j j' k c Hj Hj'; apply H2; right; assumption|]. intros b n _. reflexivity. }
  split; [vm_compute; reflexivity|]. split; [apply (fschedule_run cv_moves ex_w (map jobs_p cv_two))|].
  repeat (split; [vm_compute; reflexivity|]). vm_compute. reflexivity.
Qed.
(** One system call fails: one for the index, one for the schema of the data, one for
    the data, one for a part, none. *)
Definition cv_alone n := fst (multi_session Debug LE 9 4 32 ex_ts (FileStorage 0 "/d") "m" ex_schema cv_items
  (set_faults (repeat FOk n ++ [FErr KOther]) ex_w)).
Example C92_errors_example :
  job_typed (JMulti Debug LE 9 4 32 ex_ts "/d" "m" ex_schema cv_items) /\
  cv_alone 5 = Ret (Er (EIo KOther "m")) /\ cv_alone 8 = Panic /\ cv_alone 11 = Panic /\ cv_alone 15 = Panic /\ cv_alone 60 = Ret (Ok tt).
Proof. split; [apply cv_multi|]. vm_compute. repeat split. Qed.
