(** Property C64: builders that go on after failures.
    Vocabulary (RetrySpec.v): [attempts] (calls, whether each one worked, and the
    [course]: what is then known about each resource), [attempted] (everything
    required has been tried), [complete] (everything required worked),
    [course_shows] (what should be seen: the data of the last call that worked; if
    the last call failed, nothing or data of one of the calls). *)
From Verif Require Import Base BaseFacts Codec CodecSpec CodecFacts Structs StructsSpec StructsFacts Views ViewsSpec ViewsFacts.
From Verif Require Import Storage PathFacts StorageSpec StorageFacts StorageMore StorageUse PropsStorage Writers WritersSpec HandleFacts EncodeFacts.
From Verif Require Import ElsewhereFacts ExtVecFacts ExtVecUse MultiViews MultiSpec MultiViewFacts MultiViewUse MultiVecFacts MultiVecUse.
From Verif Require Import Archives ArchiveSpec ArchiveFacts PropsArchive BuilderSpec BuilderFacts BuilderUse BuilderCrash PropsBuilder.
From Verif Require Import RetrySpec RetryFacts.
Local Open Scope list_scope.
Local Open Scope Z_scope.

(** Any number of calls, any of which may have failed at any system call, then
    possibly a call in which the process panics or dies.  A new process opens the
    directory or gets an error.  If it opens, everything required has been tried
    and what was set last is shown.  If everything required worked in the end, it
    opens. *)
Theorem C64_last_success_wins b e b' e' lim a id base w st' w1 ops flags A s' w2 A' w3 : let st := FileStorage id base in
  wf_archive true a -> maps_ok w -> unused_storage st w ->
  builder_new b e a st w = (Ret (Ok st'), w1) ->
  brun b e lim a ops (new_bstate st') w1 = (Ret (flags, s'), w2) ->
  attempts a no_course ops flags A ->
  (A' = A /\ w3 = w2 \/
   exists o oc, tries a A o false A' /\ bstep b e lim a o s' w2 = (oc, w3) /\ forall x, oc <> Ret x) ->
  disk_ok w3 ->
  exists r, fresh_open b' e' a base w3 = Ret r /\
    (forall x, r = Ok x -> attempted a A' /\ course_shows a A' x) /\
    (complete a A' -> exists x, r = Ok x).
Proof. exact (retry_open b e b' e' lim a id base w st' w1 ops flags A s' w2 A' w3). Qed.
Print Assumptions C64_last_success_wins.

(** Sub-archives are different.  Creation fails if there is a signature file.  So
    if creation failed and left one behind, it never works again, although there
    are no more failing system calls. *)
Theorem C64_sub_stuck b e lim a k x s id base c n w :
  bs_st s = FileStorage id base -> nth_error (ad_subs a) k = Some x -> w_faults w = [] ->
  w_files w (key_of (path_join (path_join base (fst (fst x))) (signature_name (ad_name (snd (fst x)))))) = Some c ->
  exists w', brun b e lim a (repeat (BSubNew k) n) s w = (Ret (repeat false n, s), w').
Proof. intros. eapply sub_stuck; eauto. Qed.
Print Assumptions C64_sub_stuck.

(** Writing the raw data fails after one byte of the content, so does the first
    start of the vector.  The struct is set twice. *)
Definition ex_retries : list bop :=
  [BSubNew 0; BSub 0 (BRaw 0 [8; 8]); BStruct 0 [1; 2; 3; 4]; BRaw 0 [9]; BRaw 0 [7; 7; 7]; BMulStart 0;
   BMulGrow 0 [(1%nat, [(0%nat, 5); (1%nat, 6)])]; BMulClose 0;
   BVecStart 0; BVecStart 0; BVecGrow 0 [(0%nat, 1); (1%nat, 2)]; BVecClose 0; BStruct 0 [5; 6; 7; 8]].
Definition ex_flags : list bool := [true; true; true; false; true; true; true; true; false; true; true; true; true].
Definition ex_flaky := set_faults (repeat FOk 41 ++ [FShort 1 KOther] ++ repeat FOk 41 ++ [FErr KOther]) ex_w.
Definition ex_course : course :=
  co_struct 0 (Known (Some [5; 6; 7; 8]))
 (co_vec 0 (VDone [[(0%nat, 1); (1%nat, 2)]]) (co_vec 0 (VWriting [[(0%nat, 1); (1%nat, 2)]]) (co_vec 0 (VWriting [])
 (co_vec 0 (VByte (Unsure [])) (co_mul 0 (MDone [[(1%nat, [(0%nat, 5); (1%nat, 6)])]]) (co_mul 0 (MWriting [[(1%nat, [(0%nat, 5); (1%nat, 6)])]])
 (co_mul 0 (MWriting []) (co_raw 0 (Known (Some [7; 7; 7])) (co_raw 0 (Unsure [[9]]) (co_struct 0 (Known (Some [1; 2; 3; 4]))
 (co_sub 0 (SLive (co_raw 0 (Known (Some [8; 8])) no_course)) (co_sub 0 (SLive no_course) no_course)))))))))))).
Lemma ex_attempts : attempts ex_Arch no_course ex_retries ex_flags ex_course.
Proof.
  unfold ex_retries, ex_flags.
  eapply attempts_cons; [eapply try_sub_new; [reflexivity|left; reflexivity]|].
  eapply attempts_cons; [eapply try_sub; [reflexivity|reflexivity|eapply try_raw; [reflexivity|split; [bytes_solve|range_solve]]]|].
  eapply attempts_cons; [eapply try_struct; [reflexivity|bytes_solve|range_solve|range_solve]|].
  eapply attempts_cons; [eapply try_raw; [reflexivity|split; [bytes_solve|range_solve]]|].
  eapply attempts_cons; [eapply try_raw; [reflexivity|split; [bytes_solve|range_solve]]|].
  eapply attempts_cons; [eapply try_mul_start; [reflexivity|left; reflexivity]|].
  eapply attempts_cons; [eapply try_mul_grow; [reflexivity|reflexivity|items_solve|reflexivity|range_solve|range_solve]|].
  eapply attempts_cons; [eapply try_mul_close; reflexivity|].
  eapply attempts_cons; [eapply try_vec_start; reflexivity|].
  eapply attempts_cons; [eapply try_vec_start; reflexivity|].
  eapply attempts_cons; [eapply try_vec_grow; [reflexivity|reflexivity|sets_solve|range_solve]|].
  eapply attempts_cons; [eapply try_vec_close; reflexivity|].
  eapply attempts_cons; [eapply try_struct; [reflexivity|bytes_solve|range_solve|range_solve]|]. apply attempts_nil.
Qed.
Lemma ex_complete : complete ex_Arch ex_course.
Proof.
  apply complete_eq. split; [|split; [|split; [|split]]].
  - intros [|[|[|k]]] r [= <-] E; try discriminate. eexists. reflexivity.
  - intros [|[|[|k]]] r [= <-] E; try discriminate. right. eexists. reflexivity.
  - intros [|[|[|k]]] r [= <-] E; try discriminate. eexists. reflexivity.
  - intros [|[|[|k]]] r [= <-] E; try discriminate. eexists. reflexivity.
  - intros [|[|[|k]]] r [= <-] E; try discriminate. apply complete_eq. cbn.
    split; [|split; [|split; [|split]]]; intros [|[|k]] r; cbn; try discriminate. intros [= <-] _. eauto.
Qed.
Example C64_example : forall b e,
  wf_archive true ex_Arch /\ maps_ok ex_flaky /\ unused_storage ex_fs ex_flaky /\
  omap fst (fst (ex_build b e ex_fs ex_retries ex_flaky)) = Ret ex_flags /\
  attempts ex_Arch no_course ex_retries ex_flags ex_course /\ complete ex_Arch ex_course /\
  glances (fresh_open b e ex_Arch "/d" (snd (ex_build b e ex_fs ex_retries ex_flaky))) =
  Ret (Ok ([Some [5; 6; 7; 8]; None], [Some [1; 0; 2; 0]; None],
           [Some ([0; 0; 0; 0; 5; 0; 0; 0], [1; 5; 0; 6; 0]); None], [Some [7; 7; 7]; None], [Some [Some [8; 8]]; None])).
Proof.
  intros b e. split; [apply ex_Arch_wf|]. split; [exact ex_maps|]. split; [split; [simpl; lia|simpl; auto]|].
  assert (X : omap fst (fst (ex_build b e ex_fs ex_retries ex_flaky)) = Ret ex_flags) by (destruct b, e; vm_compute; reflexivity).
  split; [exact X|]. split; [exact ex_attempts|]. split; [exact ex_complete|]. destruct b, e; vm_compute; reflexivity.
Qed.
(** The same without the second start: the file of the required vector is
    empty. *)
Example C64_example_unsure : forall b e,
  let w := snd (ex_build b e ex_fs (firstn 9 ex_retries ++ [BStruct 0 [5; 6; 7; 8]]) ex_flaky) in
  glances (fresh_open b e ex_Arch "/d" w) = Ret (Er (EIo KInvalidInput "v")).
Proof. intros b e. destruct b, e; vm_compute; reflexivity. Qed.
(** The hypothesis of C64_sub_stuck is met if writing the signature fails. *)
Definition ex_half := set_faults (repeat FOk 17 ++ [FErr KOther]) ex_w.
Example C64_example_stuck : forall b e, let w := snd (ex_build b e ex_fs [BSubNew 0] ex_half) in
  omap fst (fst (ex_build b e ex_fs [BSubNew 0] ex_half)) = Ret [false] /\
  w_faults w = [] /\
  (exists c, w_files w (key_of "/d/arch/SubArch.archive") = Some c) /\
  omap fst (fst (ex_build b e ex_fs (repeat (BSubNew 0) 5) ex_half)) = Ret (repeat false 5).
Proof. intros b e. destruct b, e; vm_compute; eauto. Qed.
