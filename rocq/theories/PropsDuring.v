(** Property C72: opening an archive while another process is building it.
    Vocabulary: [build_session] (a new builder and calls on it), [open_during]
    (an open whose steps happen at different moments), [seen_plan] (what may be
    seen of a plan), [complete] (nothing required is missing), all in
    DuringSpec.v; [moment], [world_at] in MomentSpec.v; [history], [finished],
    [sufficient] in BuilderSpec.v. *)
From Verif Require Import Base BaseFacts Codec CodecSpec Structs StructsSpec Views ViewsSpec.
From Verif Require Import Storage PathFacts StorageSpec PropsStorage Writers WritersSpec MultiViews MultiSpec.
From Verif Require Import Archives ArchiveSpec PropsArchive BuilderSpec BuilderUse PropsBuilder PropsProgress.
From Verif Require Import MomentSpec PropsMoments DuringSpec DuringUse.
Local Open Scope list_scope.
Local Open Scope Z_scope.

(** ** The reader is the one of C44 if nothing happens meanwhile. *)
Theorem C72_still b e a base w : omap fst (open_during b e (fun _ => w) a base O) = fresh_open b e a base w.
Proof. apply open_during_still. Qed.
Print Assumptions C72_still.

(** ** C72: opening returns; what is opened is a part of what is built, nothing
    required is missing, and it does not change any more. *)
Theorem C72_open_during_partial b e lim a id base ops A w : let st := FileStorage id base in
  wf_archive true a -> dirs_apart a -> maps_ok w -> unused_storage st w -> empty_place st w ->
  history true a no_plan ops A -> finished A ->
  forall tau, (forall i, not_after (tau i) (tau (S i))) ->
  let W i := world_at (build_session b e lim a st ops) w (tau i) in
  forall b' e', exists r n, open_during b' e' W a base O = Ret (r, n) /\
    forall x, r = Ok x ->
      seen_plan W (exists i, bytes_done (tau i) <> 0%nat) a base n A x /\ complete a x /\ sufficient a A.
Proof.
  intros st Wf Da M Un Em H Fin tau Ht W b' e'.
  destruct (build_during b e lim a id base ops A w Wf Da M Un Em H Fin tau Ht b' e') as (r & n & E & K).
  exists r, n. split; [exact E|]. intros x Hx. destruct (K x Hx) as (K1 & K2). split; [exact K1|]. split; [exact K2|].
  eapply seen_sufficient; eauto.
Qed.
Print Assumptions C72_open_during_partial.

(** An optional structure is set after a required one. *)
Definition d_ops : list bop :=
  [BStruct 0 [1; 2; 3; 4]; BVecStart 0; BStruct 1 [5; 6; 7; 8]; BSubNew 0; BMulStart 0; BSub 0 (BRaw 0 [8; 8]);
   BMulGrow 0 [(1%nat, [(0%nat, 5); (1%nat, 6)])]; BVecGrow 0 [(0%nat, 1); (1%nat, 2)]; BVecGrow 0 [(1%nat, 4); (0%nat, 3)];
   BRaw 0 [9]; BMulGrow 0 []; BVecClose 0; BMulClose 0].
Definition d_run (b : build) (e : endian) := build_session b e 1000 ex_Arch ex_fs d_ops.
Lemma d_history : exists A, history true ex_Arch no_plan d_ops A /\ finished A.
Proof.
  eexists. split.
  - unfold d_ops.
    eapply history_cons; [eapply may_struct; [reflexivity|reflexivity|bytes_solve|range_solve|range_solve]|].
    eapply history_cons; [eapply may_vec_start; reflexivity|].
    eapply history_cons; [eapply may_struct; [reflexivity|reflexivity|bytes_solve|range_solve|range_solve]|].
    eapply history_cons; [eapply may_sub_new; reflexivity|].
    eapply history_cons; [eapply may_mul_start; reflexivity|].
    eapply history_cons; [eapply may_sub; [reflexivity|reflexivity|eapply may_raw; [reflexivity|reflexivity|split; [bytes_solve|range_solve]]]|].
    eapply history_cons; [eapply may_mul_grow; [reflexivity|reflexivity|items_solve|reflexivity|range_solve|range_solve]|].
    eapply history_cons; [eapply may_vec_grow; [reflexivity|reflexivity|sets_solve|range_solve]|].
    eapply history_cons; [eapply may_vec_grow; [reflexivity|reflexivity|sets_solve|range_solve]|].
    eapply history_cons; [eapply may_raw; [reflexivity|reflexivity|split; [bytes_solve|range_solve]]|].
    eapply history_cons; [eapply may_mul_grow; [reflexivity|reflexivity|items_solve|reflexivity|range_solve|range_solve]|].
    eapply history_cons; [eapply may_vec_close; reflexivity|].
    eapply history_cons; [eapply may_mul_close; reflexivity|]. apply history_nil.
  - constructor.
    + intros [|k] l; discriminate.
    + intros [|k] l; discriminate.
    + intros [|k] A; [|discriminate]. intros [= <-]. constructor; intros k; discriminate.
Qed.
Definition d_open b e (l : list moment) (last : moment) :=
  glances (omap fst (open_during Release BE (fun i => world_at (d_run b e) ex_w (steps l last i)) ex_Arch "/d" O)).
(** Too early, too early for the vector, and in time. *)
Definition d_seen b e := (d_open b e [] (At 12 3), d_open b e (repeat (At 60 0) 17) (At 70 0), d_open b e (repeat (At 60 0) 17) (At 88 0)).
Example C72_example : forall b e,
  wf_archive true ex_Arch /\ dirs_apart ex_Arch /\ maps_ok ex_w /\ unused_storage ex_fs ex_w /\ empty_place ex_fs ex_w /\
  (exists A, history true ex_Arch no_plan d_ops A /\ finished A) /\
  (forall i, not_after (steps (repeat (At 60 0) 17) (At 88 0) i) (steps (repeat (At 60 0) 17) (At 88 0) (S i))) /\
  d_seen b e =
    (Ret (Er (EIo KNotFound "a")), Ret (Er EUnexpectedDataSize),
     Ret (Ok ([Some [1; 2; 3; 4]; Some [5; 6; 7; 8]], [Some [1; 0; 2; 0; 3; 0; 4; 0]; None],
              [Some ([0; 0; 0; 0; 5; 0; 0; 0; 5; 0; 0; 0], [1; 5; 0; 6; 0]); None], [Some [9]; None], [Some [Some [8; 8]]; None]))).
Proof.
  intros b e. split; [apply ex_Arch_wf|]. split; [apply ex_apart|]. split; [apply ex_maps|].
  split; [split; [simpl; lia|simpl; auto]|]. split; [apply ex_empty|]. split; [apply d_history|].
  split; [cbn [repeat]; steps_solve|]. destruct b, e; vm_compute; reflexivity.
Qed.

(** ** What is opened need not be what is built: the optional structure [b] was missing when the reader looked for
    it, and the required vector [v] had all its bytes, but not yet its size, so
    it is shown empty.  All writes were seen whole. *)
Definition d_tau := steps (repeat (At 20 0) 18 ++ repeat (At 69 0) 6) (At 88 0).
Theorem C72_final_refuted : forall b e,
  (forall i, not_after (d_tau i) (d_tau (S i))) /\ (forall i, bytes_done (d_tau i) = 0%nat) /\
  glances (omap fst (open_during b e (fun i => world_at (d_run b e) ex_w (d_tau i)) ex_Arch "/d" O)) =
    Ret (Ok ([Some [1; 2; 3; 4]; None], [Some []; None],
             [Some ([0; 0; 0; 0; 5; 0; 0; 0; 5; 0; 0; 0], [1; 5; 0; 6; 0]); None], [Some [9]; None], [Some [Some [8; 8]]; None])) /\
  glances (fresh_open b e ex_Arch "/d" (world_at (d_run b e) ex_w (At 1000 0))) =
    Ret (Ok ([Some [1; 2; 3; 4]; Some [5; 6; 7; 8]], [Some [1; 0; 2; 0; 3; 0; 4; 0]; None],
             [Some ([0; 0; 0; 0; 5; 0; 0; 0; 5; 0; 0; 0], [1; 5; 0; 6; 0]); None], [Some [9]; None], [Some [Some [8; 8]]; None])).
Proof.
  intros b e. split; [unfold d_tau; cbn [repeat app]; steps_solve|]. split.
  { unfold d_tau, steps. intros i. do 24 (destruct i as [|i]; [reflexivity|]). destruct i; reflexivity. }
  destruct b, e; vm_compute; split; reflexivity.
Qed.
Print Assumptions C72_final_refuted.
(** Nor is it what an open sees at any one time. *)
Theorem C72_snapshot_refuted : forall k,
  glances (omap fst (open_during Release LE (fun i => world_at (d_run Release LE) ex_w (d_tau i)) ex_Arch "/d" O)) <>
  glances (fresh_open Release LE ex_Arch "/d" (world_at (d_run Release LE) ex_w (At k 0))).
Proof.
  destruct (C72_final_refuted Release LE) as (_ & _ & -> & _). intros k.
  do 92 (destruct k as [|k]; [lazy; discriminate|]). lazy. discriminate.
Qed.
Print Assumptions C72_snapshot_refuted.
