(** Properties C68 - C70: reading a resource while another process writes it.
    Vocabulary (MomentSpec.v): [moment] (a point of the writer's execution, maybe
    in the middle of a write), [world_at] (the disk at a moment), [read_during]
    (a read whose steps happen at different moments), [accepted] (what a
    successful reader got), [absent] (no older version on the disk). *)
From Verif Require Import Base BaseFacts Codec CodecSpec Structs StructsSpec StructsFacts Views ViewsSpec.
From Verif Require Import Storage PathFacts StorageSpec StorageFacts StorageMore StorageUse PropsStorage.
From Verif Require Import Writers WritersSpec HandleFacts ExtVecFacts ExtVecUse PropsExtVec.
From Verif Require Import MultiViews MultiSpec MultiViewFacts MultiViewUse PropsMultiViews MultiVecFacts MultiVecUse PropsMultiVec.
From Verif Require Import MomentSpec MomentFacts MomentLogs MomentUse.
Local Open Scope list_scope.
Local Open Scope Z_scope.

(** A schedule: at least as late with every step. *)
Definition steps (l : list moment) (last : moment) (i : nat) : moment := nth i l last.
Lemma steps_mono l last :
  (forall i, (i < length l)%nat -> not_after (nth i l last) (nth (S i) l last)) ->
  forall i, not_after (steps l last i) (steps l last (S i)).
Proof.
  intros H i. unfold steps. destruct (Nat.lt_ge_cases i (length l)) as [L|L]; auto.
  rewrite !nth_overflow by lia. right. split; auto.
Qed.
Ltac steps_solve := apply steps_mono; intros i Hi; simpl in Hi; repeat (first [exfalso; lia | destruct i as [|i]; [unfold not_after; simpl; lia|]]).

(** ** The reader is the one of C22 - C30 if nothing happens meanwhile. *)
Theorem C68_still b e base name expected w :
  read_during b e (fun _ => w) base name expected = fresh_read b e base name expected w.
Proof. apply read_during_still. Qed.
Print Assumptions C68_still.

(** ** C68: a resource written in one go is seen completely or not at all. *)
Theorem C68_write b e id base name schema data w : let st := FileStorage id base in
  w_faults w = [] -> fresh_name st name w -> unblocked st name w -> absent st name w -> data_ok data ->
  forall tau, (forall i, not_after (tau i) (tau (S i))) ->
  let W i := world_at (write b e st name schema data) w (tau i) in
  forall b' e' expected, exists r, read_during b' e' W base name expected = Ret r /\
    forall sl, r = Ok sl -> sl_bytes sl = data /\ slice_ok sl /\ (exists q, schema = expected ++ q) /\
      forall i, (4 <= i)%nat -> look (W i) base name (sl_len sl) = Ret data.
Proof.
  intros st Hf F U A D tau Ht W b' e' expected.
  destruct (write_during b e id base name schema data w Hf F U A D tau Ht b' e' expected) as (r & E & K).
  exists r. split; auto. intros sl Hr. destruct (K sl Hr) as ((K1 & K2 & _ & _ & _ & K3) & K4).
  split; auto. split; auto. split; auto. intros i Hi. etransitivity; [apply (K3 i Hi)|f_equal; exact K4].
Qed.
Print Assumptions C68_write.

(** The reader starts in the middle of the write and ends before or after it. *)
Definition w_run := write Debug LE ex_fs "x" ex_schema [1; 2; 3].
Example C68_write_example :
  w_faults ex_w = [] /\ fresh_name ex_fs "x" ex_w /\ unblocked ex_fs "x" ex_w /\ absent ex_fs "x" ex_w /\
  (forall i, not_after (steps [At 5 3; At 6 0; At 8 2; At 9 0] (At 9 1) i) (steps [At 5 3; At 6 0; At 8 2; At 9 0] (At 9 1) (S i))) /\
  let go l last := omap seen (read_during Release BE (fun i => world_at w_run ex_w (steps l last i)) "/d" "x" ex_schema) in
  go [At 5 3; At 6 0; At 8 2; At 9 0] (At 9 1) = Ret (Ok [1; 2; 3]) /\
  go [At 5 3; At 5 4; At 8 2; At 9 0] (At 9 1) = Ret (Er EUnexpectedDataSize) /\
  go [At 5 3; At 6 0; At 8 2] (At 8 9) = Ret (Er (EWrongSignature "x")) /\
  go [] (At 4 2) = Ret (Er (EIo KNotFound "x")).
Proof.
  split; [reflexivity|]. split; [apply ex_fresh_file|]. split; [apply ex_unblocked|]. split; [split; reflexivity|].
  split; [steps_solve|]. vm_compute. repeat split.
Qed.

(** ** C69: an external vector that grows and is closed: [D] are the final data. *)
Theorem C69_external_vector_partial b e lim s id base name schema ops w : let st := FileStorage id base in
  w_faults w = [] -> wf_struct s -> schema_ok st schema -> maps_ok w -> fresh_name st name w -> unblocked st name w -> absent st name w ->
  only_grows ops -> Forall (ev_op_ok st name s) ops -> grows ops * s_size s + 16 <= isize_max ->
  exists D, array_of s D (elements s (all_sets ops)) /\ records s D = elements s (all_sets ops) /\
  forall tau, (forall i, not_after (tau i) (tau (S i))) ->
  let W i := world_at (ev_session b e lim s st name schema ops) w (tau i) in
  forall b' e' expected, exists r, read_during b' e' W base name expected = Ret r /\
    forall sl, r = Ok sl -> accepted D (bytes_done (tau 4%nat) <> 0%nat) schema expected W base name sl.
Proof. apply ev_during. Qed.
Print Assumptions C69_external_vector_partial.

Definition g_ops := [EGrow [(0%nat, 513); (1%nat, -3)]; EGrow [(2%nat, 1)]; EGrow []; EGrow [(0%nat, 1); (1%nat, 15)]].
Definition g_run := ev_session Debug LE 12 ex_struct ex_fs "x" [65] g_ops.
Lemma g_ops_ok : Forall (ev_op_ok ex_fs "x" ex_struct) g_ops.
Proof.
  unfold g_ops. repeat (constructor; [cbn [ev_op_ok]; repeat (constructor; [split; [cbn; lia|cbn; lia]|]); constructor|]). constructor.
Qed.
Example C69_external_vector_example :
  absent ex_fs "x" ex_w /\ only_grows g_ops /\ Forall (ev_op_ok ex_fs "x" ex_struct) g_ops /\ grows g_ops * s_size ex_struct + 16 <= isize_max /\
  elements ex_struct (all_sets g_ops) = [[513; -3; 0]; [0; 0; 1]; [0; 0; 0]; [1; 15; 0]] /\
  let go l last := omap seen (read_during Release BE (fun i => world_at g_run ex_w (steps l last i)) "/d" "x" [65]) in
  go [At 9 8] (At 12 0) = Ret (Ok [1; 210; 1; 0; 0; 128; 0; 0; 0; 1; 240; 0]) /\
  go [At 9 8; At 10 0; At 10 0; At 10 0] (At 10 0) = Ret (Er EUnexpectedDataSize) /\
  go [At 8 1; At 8 2] (At 12 0) = Ret (Er EUnexpectedDataSize) /\ go [At 8 1; At 8 2] (At 8 3) = Ret (Ok []).
Proof.
  split; [split; reflexivity|]. split; [repeat constructor|]. split; [apply g_ops_ok|].
  split; [unfold isize_max; vm_compute; congruence|]. split; [reflexivity|]. vm_compute. repeat split.
Qed.

(** ** A multivector: index and data. *)
Theorem C69_multi_vector_partial b e lim size bits ts id base name schema ops w : let st := FileStorage id base in
  w_faults w = [] -> wf_struct (index_struct size bits) -> wf_vdesc ts -> valid_name name -> mv_schema_ok st schema -> maps_ok w ->
  mv_fresh st name w -> mv_unblocked st name w -> absent st name w -> absent st (index_name name) w ->
  only_mgrows ops -> Forall (mv_op_ok st name ts) ops -> mv_fits size bits ts ops ->
  exists iv d, mav_shows ts size bits (mkMav iv d) (buckets ts (mv_all ops)) /\
  forall tau, (forall i, not_after (tau i) (tau (S i))) ->
  let W i := world_at (mv_session b e lim size bits ts st name schema ops) w (tau i) in
  forall b' e' expected,
    (exists r, read_during b' e' W base (index_name name) expected = Ret r /\
       forall sl, r = Ok sl -> accepted (sl_bytes iv) (bytes_done (tau 4%nat) <> 0%nat) (index_schema schema) expected W base (index_name name) sl) /\
    (exists r, read_during b' e' W base name expected = Ret r /\
       forall sl, r = Ok sl -> accepted (sl_bytes d) (bytes_done (tau 4%nat) <> 0%nat) schema expected W base name sl).
Proof. apply mv_during. Qed.
Print Assumptions C69_multi_vector_partial.

Definition m_ops := [MGrow [(0%nat, [(0%nat, 197121)])]; MGrow []; MGrow [(1%nat, [(0%nat, 9); (1%nat, -2); (0%nat, 10)]); (0%nat, [(0%nat, 16777215)])]].
Definition m_run := mv_session Debug LE 6 4 32 ex_ts ex_fs "x" [65] m_ops.
Example C69_multi_vector_example :
  absent ex_fs "x" ex_w /\ absent ex_fs (index_name "x") ex_w /\ only_mgrows m_ops /\ Forall (mv_op_ok ex_fs "x" ex_ts) m_ops /\
  mv_fits 4 32 ex_ts m_ops /\ buckets ex_ts (mv_all m_ops) = ex_buckets /\
  let go (n : string) s l last := omap seen (read_during Release BE (fun i => world_at m_run ex_w (steps l last i)) "/d" n s) in
  go (index_name "x"%string) (index_schema [65]) [At 20 8] (At 23 0) = Ret (Ok [0; 0; 0; 0; 4; 0; 0; 0; 4; 0; 0; 0; 13; 0; 0; 0]) /\
  go "x"%string [65] [At 20 8] (At 23 0) = Ret (Er EUnexpectedDataSize) /\
  go "x"%string [65] [At 20 8; At 20 8] (At 30 0) = Ret (Er EUnexpectedDataSize) /\
  go "x"%string [65] [At 20 8; At 27 0] (At 30 0) = Ret (Ok [7; 1; 2; 3; 200; 10; 0; 254; 255; 7; 255; 255; 255]).
Proof.
  split; [split; reflexivity|]. split; [split; reflexivity|]. split; [repeat constructor|]. split.
  { constructor; [|constructor; [|constructor; [|constructor]]]; cbn [mv_op_ok]; unfold items_ok;
    repeat (constructor; [split; [cbn; lia|repeat (constructor; [split; cbn; lia|]); constructor]|]); constructor. }
  split; [split; [vm_compute; congruence|]; split; unfold isize_max; vm_compute; congruence|]. split; [reflexivity|].
  vm_compute. repeat split.
Qed.

(** ** Three things that do not hold *)

(** All or nothing: the size field of a closed vector is written last and may be
    seen half written.  A reader that mapped the file when it had just the
    right length gets the first of 17 elements. *)
Definition t_struct := mkStruct 16 [mkField U8 0 8].
Definition t_ops := repeat (EGrow [(0%nat, 7)]) 17.
Definition t_run b e := ev_session b e 1000 t_struct ex_fs "x" [65] t_ops.
Definition t_tau := steps [At 7 24; At 7 24; At 7 24; At 7 24] (At 10 1).
Theorem C69_torn_refuted : forall b e,
  only_grows t_ops /\ grows t_ops = 17 /\ (forall i, not_after (t_tau i) (t_tau (S i))) /\
  omap seen (read_during b e (fun i => world_at (t_run b e) ex_w (t_tau i)) "/d" "x" [65]) = Ret (Ok (7 :: zeros 15)).
Proof.
  intros b e. split; [repeat constructor|]. split; [reflexivity|]. split; [unfold t_tau; steps_solve|].
  destruct b, e; vm_compute; reflexivity.
Qed.
Print Assumptions C69_torn_refuted.

(** Type safety: a schema that is half written may be the one that is expected. *)
Definition s_tau := steps [At 7 0; At 7 0; At 8 0; At 8 9] (At 8 9).
Theorem C69_schema_refuted : forall b e, exists expected, expected <> ex_schema /\
  (forall i, not_after (s_tau i) (s_tau (S i))) /\
  omap seen (read_during b e (fun i => world_at (write b e ex_fs "x" ex_schema [1; 2; 3]) ex_w (s_tau i)) "/d" "x" expected) = Ret (Ok [1; 2; 3]).
Proof.
  intros b e. exists (str "struct S "). split; [discriminate|]. split; [unfold s_tau; steps_solve|].
  destruct b, e; vm_compute; reflexivity.
Qed.
Print Assumptions C69_schema_refuted.

(** Overwriting: if there is an older version of the resource, a reader may lose
    the memory it has mapped (SIGBUS). *)
Definition o_world := set_faults [] (snd (write Debug LE ex_fs "x" ex_schema [9; 9; 9; 9] ex_w)).
Definition o_tau := steps [At 0 0; At 0 0; At 0 0; At 0 0] (At 3 0).
Theorem C69_overwrite_refuted : forall b e,
  fresh_read b e "/d" "x" ex_schema o_world = Ret (Ok (mkSlice ([9; 9; 9; 9] ++ zeros 8) 4)) /\
  (forall i, not_after (o_tau i) (o_tau (S i))) /\
  read_during b e (fun i => world_at (write b e ex_fs "x" ex_schema [1; 2; 3]) o_world (o_tau i)) "/d" "x" ex_schema = UB.
Proof.
  intros b e. split; [destruct b, e; vm_compute; reflexivity|]. split; [unfold o_tau; steps_solve|].
  destruct b, e; vm_compute; reflexivity.
Qed.
Print Assumptions C69_overwrite_refuted.

(** ** C70: opening a multivector while it is written *)
Theorem C70_multi_vector_partial b e lim size bits ts id base name schema ops w : let st := FileStorage id base in
  w_faults w = [] -> wf_struct (index_struct size bits) -> wf_vdesc ts -> valid_name name -> mv_schema_ok st schema -> maps_ok w ->
  mv_fresh st name w -> mv_unblocked st name w -> absent st name w -> absent st (index_name name) w ->
  only_mgrows ops -> Forall (mv_op_ok st name ts) ops -> mv_fits size bits ts ops ->
  exists I D, (forall i d, slice_ok i -> slice_ok d -> sl_bytes i = I -> sl_bytes d = D ->
                 mav_shows ts size bits (mkMav i d) (buckets ts (mv_all ops))) /\
  forall tau, (forall i, not_after (tau i) (tau (S i))) ->
  let W i := world_at (mv_session b e lim size bits ts st name schema ops) w (tau i) in
  forall b' e', exists r, open_multi_during b' e' W base name schema = Ret r /\
    forall i d, r = Ok (i, d) ->
      slice_ok i /\ slice_ok d /\
      (sl_len i = 0 \/ sl_len d = 0 /\ len D <= 8 \/
       sl_bytes d = D /\ (exists q, I = sl_bytes i ++ q) /\ (bytes_done (tau 4%nat) = 0%nat -> sl_bytes i = I)).
Proof. apply mv_open_during. Qed.
Print Assumptions C70_multi_vector_partial.

Definition m_open {A} (run : M A) l last := open_multi_during Debug LE (fun i => world_at run ex_w (steps l last i)) "/d" "x" [65].
Example C70_example :
  match m_open m_run [At 20 8] (At 30 0) with
  | Ret (Ok (i, d)) => omap sl_bytes (mav_at Debug LE 4 32 (mkMav i d) 2) = Ret [200; 10; 0; 254; 255; 7; 255; 255; 255]
  | _ => False
  end /\
  m_open m_run [At 20 8] (At 26 0) = Ret (Er EUnexpectedDataSize).
Proof. vm_compute. repeat split. Qed.

(** Both exceptions occur, also if the reader only looks between the system calls
    of the writer.  If the index was mapped when it had 8 bytes of data, it is
    taken for empty and the length of the multivector is not defined ... *)
Theorem C70_empty_index_refuted :
  let tau := [At 16 0; At 16 0; At 16 0; At 16 0; At 16 0; At 16 0] in
  (forall i, not_after (steps tau (At 30 0) i) (steps tau (At 30 0) (S i))) /\
  match m_open m_run tau (At 30 0) with
  | Ret (Ok (i, d)) => sl_len i = 0 /\ sl_len d = 13 /\ mav_len Debug 4 32 (mkMav i d) = Panic /\
                       mav_len Release 4 32 (mkMav i d) = Ret (2 ^ 64 - 1)
  | _ => False
  end.
Proof. cbn zeta. split; [steps_solve|]. vm_compute. repeat split. Qed.
Print Assumptions C70_empty_index_refuted.

(** ... and if there are 8 bytes of data, the index may be complete and the data
    missing, so that buckets cannot be accessed. *)
Definition m_run8 := mv_session Debug LE 1000 4 32 ex_ts ex_fs "x" [65] mx_bucket8.
Theorem C70_eight_refuted :
  match m_open m_run8 [] (At 20 0) with
  | Ret (Ok (i, d)) => mav_len Debug 4 32 (mkMav i d) = Ret 1 /\ mav_at Debug LE 4 32 (mkMav i d) 0 = Panic
  | _ => False
  end.
Proof. vm_compute. repeat split. Qed.
Print Assumptions C70_eight_refuted.
