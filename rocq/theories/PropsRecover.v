(** Property C104: when system calls no longer fail, a builder goes on as if none
    had failed.
    Vocabulary: [attempts], [tries], [complete], [course_shows] (RetrySpec.v);
    [bare] (nothing is at the place yet), [may_create] (there is no signature file
    yet where a sub-archive is created), [closes], [idle] (no vector or multivector
    is being written), [subs_fine] (creating a sub-archive has not failed)
    (RecoverSpec.v). *)
From Verif Require Import Base BaseFacts Codec CodecSpec CodecFacts Structs StructsSpec StructsFacts Views ViewsSpec ViewsFacts.
From Verif Require Import Storage PathFacts StorageSpec StorageFacts StorageMore StorageUse PropsStorage Writers WritersSpec HandleFacts EncodeFacts.
From Verif Require Import ElsewhereFacts ExtVecFacts ExtVecUse MultiViews MultiSpec MultiViewFacts MultiViewUse MultiVecFacts MultiVecUse.
From Verif Require Import Archives ArchiveSpec ArchiveFacts PropsArchive BuilderSpec BuilderFacts BuilderUse BuilderCrash PropsBuilder PropsProgress.
From Verif Require Import RetrySpec RetryFacts PropsRetry RecoverSpec RecoverFacts.
Local Open Scope list_scope.
Local Open Scope Z_scope.

(** Any number of calls, any of which may have failed at any system call.  From
    then on none fails.  Every further call that does not close a vector or
    multivector returns, and it succeeds, unless it creates a sub-archive
    whose signature was left behind. *)
Theorem C104_call_partial b e lim a id base w st' w1 ops flags A s2 w2 o A' : let st := FileStorage id base in
  wf_archive true a -> dirs_apart a -> maps_ok w -> unused_storage st w -> bare base w ->
  builder_new b e a st w = (Ret (Ok st'), w1) ->
  brun b e lim a ops (new_bstate st') w1 = (Ret (flags, s2), w2) ->
  attempts a no_course ops flags A ->
  w_faults w2 = [] -> tries a A o true A' -> closes o = false ->
  exists f s3 w3, bstep b e lim a o s2 w2 = (Ret (f, s3), w3) /\ (f = true <-> may_create a base o w2).
Proof. intros. eapply after_one; eauto. Qed.
Print Assumptions C104_call_partial.

(** If no vector or multivector is being written and no sub-archive could not be
    created, then all further calls succeed, also those that repeat what failed.
    If everything required worked in the end, the archive opens and shows what was
    set last. *)
Theorem C104_run_partial b e b' e' lim a id base w st' w1 ops flags A s2 w2 ops' A' : let st := FileStorage id base in
  wf_archive true a -> dirs_apart a -> maps_ok w -> unused_storage st w -> bare base w ->
  builder_new b e a st w = (Ret (Ok st'), w1) ->
  brun b e lim a ops (new_bstate st') w1 = (Ret (flags, s2), w2) ->
  attempts a no_course ops flags A ->
  w_faults w2 = [] -> idle A -> subs_fine A -> attempts a A ops' (repeat true (length ops')) A' ->
  exists s3 w3, brun b e lim a ops' s2 w2 = (Ret (repeat true (length ops'), s3), w3) /\
    (disk_ok w3 -> complete a A' -> exists x, fresh_open b' e' a base w3 = Ret (Ok x) /\ course_shows a A' x).
Proof. intros. eapply after_all; eauto. Qed.
Print Assumptions C104_run_partial.

(** Closing is different.  If adding an element failed in the middle of writing to
    the file, the bytes written stay, so the file does not have the right size and
    closing returns an error, although nothing fails any more and the element
    was added again.  (With a buffer of 4 bytes; the one of the code has 32 MB.) *)
Definition ex_torn (b : build) (e : endian) (ops : list bop) :=
  match builder_new b e ex_Arch ex_fs (set_faults (repeat FOk 15 ++ [FShort 1 KOther]) ex_w) with
  | (Ret (Ok st'), w1) => brun b e 4 ex_Arch ops (new_bstate st') w1
  | (_, w1) => (Panic, w1)
  end.
Definition ex_grow := BVecGrow 0 [(0%nat, 1); (1%nat, 2)].
Theorem C104_close_refuted : exists ops flags A A', forall b e,
  attempts ex_Arch no_course ops flags A /\ subs_fine A /\ tries ex_Arch A (BVecClose 0) true A' /\
  omap fst (fst (ex_torn b e ops)) = Ret flags /\ w_faults (snd (ex_torn b e ops)) = [] /\
  omap fst (fst (ex_torn b e (ops ++ [BVecClose 0]))) = Ret (flags ++ [false]).
Proof.
  exists [BVecStart 0; ex_grow; ex_grow; ex_grow], [true; true; false; true]. eexists _, _. intros b e.
  split; [|split; [|split; [|destruct b, e; vm_compute; auto]]].
  - eapply attempts_cons; [eapply try_vec_start; reflexivity|].
    eapply attempts_cons; [eapply try_vec_grow; [reflexivity|reflexivity|sets_solve|range_solve]|].
    eapply attempts_cons; [eapply try_vec_grow; [reflexivity|reflexivity|sets_solve|range_solve]|].
    eapply attempts_cons; [eapply try_vec_grow; [reflexivity|reflexivity|sets_solve|range_solve]|]. apply attempts_nil.
  - constructor; [intros k; discriminate|intros k B; discriminate].
  - eapply try_vec_close; reflexivity.
Qed.
Print Assumptions C104_close_refuted.

(** The first nine calls of the example of C64: writing raw data failed and was
    repeated, starting the vector failed.  Then nothing fails: the vector is
    started again. *)
Definition ex_nine : course :=
  co_vec 0 (VByte (Unsure [])) (co_mul 0 (MDone [[(1%nat, [(0%nat, 5); (1%nat, 6)])]]) (co_mul 0 (MWriting [[(1%nat, [(0%nat, 5); (1%nat, 6)])]])
 (co_mul 0 (MWriting []) (co_raw 0 (Known (Some [7; 7; 7])) (co_raw 0 (Unsure [[9]]) (co_struct 0 (Known (Some [1; 2; 3; 4]))
 (co_sub 0 (SLive (co_raw 0 (Known (Some [8; 8])) no_course)) (co_sub 0 (SLive no_course) no_course)))))))).
Lemma ex_nine_attempts : attempts ex_Arch no_course (firstn 9 ex_retries) (firstn 9 ex_flags) ex_nine.
Proof.
  cbn [firstn ex_retries ex_flags].
  eapply attempts_cons; [eapply try_sub_new; [reflexivity|left; reflexivity]|].
  eapply attempts_cons; [eapply try_sub; [reflexivity|reflexivity|eapply try_raw; [reflexivity|split; [bytes_solve|range_solve]]]|].
  eapply attempts_cons; [eapply try_struct; [reflexivity|bytes_solve|range_solve|range_solve]|].
  eapply attempts_cons; [eapply try_raw; [reflexivity|split; [bytes_solve|range_solve]]|].
  eapply attempts_cons; [eapply try_raw; [reflexivity|split; [bytes_solve|range_solve]]|].
  eapply attempts_cons; [eapply try_mul_start; [reflexivity|left; reflexivity]|].
  eapply attempts_cons; [eapply try_mul_grow; [reflexivity|reflexivity|items_solve|reflexivity|range_solve|range_solve]|].
  eapply attempts_cons; [eapply try_mul_close; reflexivity|].
  eapply attempts_cons; [eapply try_vec_start; reflexivity|]. apply attempts_nil.
Qed.
Lemma ex_nine_rest : attempts ex_Arch ex_nine (skipn 9 ex_retries) (repeat true (length (skipn 9 ex_retries))) ex_course.
Proof.
  cbn [skipn ex_retries length repeat].
  eapply attempts_cons; [eapply try_vec_start; reflexivity|].
  eapply attempts_cons; [eapply try_vec_grow; [reflexivity|reflexivity|sets_solve|range_solve]|].
  eapply attempts_cons; [eapply try_vec_close; reflexivity|].
  eapply attempts_cons; [eapply try_struct; [reflexivity|bytes_solve|range_solve|range_solve]|]. apply attempts_nil.
Qed.
Lemma ex_nine_idle : idle ex_nine /\ subs_fine ex_nine.
Proof.
  split.
  - constructor; [intros [|k] l; discriminate|intros [|k] l; discriminate|].
    intros [|k] B; [|discriminate]. intros [= <-].
    constructor; [intros k l; discriminate|intros k l; discriminate|intros k B; discriminate].
  - constructor; [intros [|k]; discriminate|]. intros [|k] B; [|discriminate]. intros [= <-].
    constructor; [intros k; discriminate|intros k B; discriminate].
Qed.
Example C104_example : forall b e,
  let w2 := snd (ex_build b e ex_fs (firstn 9 ex_retries) ex_flaky) in
  wf_archive true ex_Arch /\ dirs_apart ex_Arch /\ maps_ok ex_flaky /\ unused_storage ex_fs ex_flaky /\ bare "/d" ex_flaky /\
  omap fst (fst (ex_build b e ex_fs (firstn 9 ex_retries) ex_flaky)) = Ret (firstn 9 ex_flags) /\
  attempts ex_Arch no_course (firstn 9 ex_retries) (firstn 9 ex_flags) ex_nine /\ w_faults w2 = [] /\
  idle ex_nine /\ subs_fine ex_nine /\
  attempts ex_Arch ex_nine (skipn 9 ex_retries) (repeat true (length (skipn 9 ex_retries))) ex_course /\ complete ex_Arch ex_course /\
  may_create ex_Arch "/d" (BVecStart 0) w2.
Proof.
  intros b e. split; [apply ex_Arch_wf|]. split; [apply ex_apart|]. split; [exact ex_maps|]. split; [split; [simpl; lia|simpl; auto]|].
  split; [split; [intros n; reflexivity|intros k _; split; reflexivity]|].
  split; [destruct b, e; vm_compute; reflexivity|]. split; [exact ex_nine_attempts|].
  split; [destruct b, e; vm_compute; reflexivity|]. split; [apply ex_nine_idle|]. split; [apply ex_nine_idle|].
  split; [exact ex_nine_rest|]. split; [exact ex_complete|exact I].
Qed.
