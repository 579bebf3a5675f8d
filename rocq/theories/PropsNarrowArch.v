(** Property C96: opening archives on a target whose usize has W bits.
    Vocabulary (WidthArchSpec.v): [holds_w], [opened_w] (what such a reader takes
    for a resource or archive), [readable_w], [tame_w], [low], [within]. *)
From Verif Require Import Base BaseFacts Codec CodecSpec CodecFacts Structs StructsSpec StructsFacts Views ViewsSpec ViewsFacts.
From Verif Require Import Storage PathFacts StorageSpec StorageFacts StorageMore StorageUse PropsStorage.
From Verif Require Import Writers WritersSpec MultiViews MultiSpec Archives ArchiveSpec ArchiveFacts PropsArchive.
From Verif Require Import Width WidthFacts WidthArchives WidthArchSpec WidthArchFacts.
Local Open Scope list_scope.
Local Open Scope Z_scope.

(** With 64 bits this is the code of the rest of the model. *)
Theorem C96_same b e a st w : maps_ok w -> (st_id st < w_next w)%nat -> everywhere readable a (PStorage st w) ->
  open_archive_w 64 b e a st w = open_archive b e a st w.
Proof. exact (open_64 b e a st w). Qed.
Print Assumptions C96_same.

(** If the files fit and no size header is over 2^W, the width makes no
    difference, whatever the system calls do. *)
Theorem C96_portable W b e a st w : 8 <= W <= 64 -> let p := PStorage st w in maps_ok w -> (st_id st < w_next w)%nat ->
  everywhere (readable_w W) a p -> everywhere (low W) a p ->
  open_archive_w W b e a st w = open_archive b e a st w.
Proof. exact (open_portable W b e a st w). Qed.
Print Assumptions C96_portable.

(** In general it returns what is there for a reader that does not see the high
    bits of the sizes, and an error exactly if there is nothing. *)
Theorem C96_open W b e a st w : 8 <= W <= 64 -> let p := PStorage st w in
  w_faults w = [] -> maps_ok w -> (st_id st < w_next w)%nat -> everywhere (readable_w W) a p ->
  (b = Release \/ everywhere (tame_w W) a p) ->
  exists r w', open_archive_w W b e a st w = (Ret r, w') /\
    match r with Ok x => opened_w W true a p x | Er _ => forall x, ~ opened_w W true a p x end.
Proof. intros HW. exact (open_w_exact W HW b e a st w). Qed.
Print Assumptions C96_open.

Theorem C96_unique W a p x y : opened_w W true a p x -> opened_w W true a p y -> visible x = visible y.
Proof. exact (opened_w_fun W a p x y). Qed.
Print Assumptions C96_unique.

Theorem C96_sound W b e a st w o w' : 8 <= W <= 64 -> let p := PStorage st w in
  maps_ok w -> (st_id st < w_next w)%nat -> everywhere (readable_w W) a p ->
  open_archive_w W b e a st w = (o, w') ->
  w_files w' = w_files w /\ w_dirs w' = w_dirs w /\
  (forall id, (id < w_next w)%nat -> w_streams w' id = w_streams w id) /\
  o <> UB /\ (forall x, o = Ret (Ok x) -> opened_w W false a p x).
Proof. intros HW. exact (open_w_sound W HW b e a st w o w'). Qed.
Print Assumptions C96_sound.

(** What opens on a 64-bit target opens on narrower ones, with at least as much
    to see. *)
Theorem C96_wider W a p x : 8 <= W <= 64 -> everywhere (readable_w W) a p -> opened true a p x ->
  exists y, opened_w W true a p y /\ within x y.
Proof. intros HW. exact (opened_wider W HW a p x). Qed.
Print Assumptions C96_wider.

(** ** Example *)
(** An optional resource whose header is 2^32 too big. *)
Definition na_high (w : world) : world := put "/d/s" (le_bytes 8 (2 ^ 32 + 1) ++ [5] ++ zeros 8) (put "/d/s.schema" (str "s schema") (ex_required w)).
Definition na_world (f : world -> world) : world := reader_world (f ex_w).
Definition na_open W b (f : world -> world) := glances (fst (open_archive_w W b LE ex_Arch (FileStorage 0 "/d") (na_world f))).
Definition na_see s :=
  Ret (Ok ([Some [1; 2; 3; 4]; None], [Some [1; 0; 2; 0; 3; 0; 4; 0]; None],
           [Some ([0; 0; 0; 0; 5; 0; 0; 0], [1; 5; 0; 6; 0]); None], [Some [9]; s],
           [Some [Some [8; 8]]; None])) : outcome (result _ rs_error).
Example C96_example b :
  na_open 32 b ex_required = na_see None /\ na_open 64 b ex_required = na_see None /\
  na_open 32 b na_high = na_see (Some [5]) /\ na_open 64 b na_high = na_see None /\
  na_open 16 Release (fun w => put "/d/a.schema" [65] (na_high w)) = Ret (Er (EWrongSignature "a")).
Proof. destruct b; vm_compute; repeat split. Qed.
(** The hypotheses of the theorems. *)
Definition na_one (w : world) : world := put_res "/d" "One.archive" [65] [] (put "/d/r" (le_bytes 8 (2 ^ 32 + 1) ++ [5] ++ zeros 8) (put "/d/r.schema" [66] w)).
Definition na_st := FileStorage 0 "/d".
Example C96_hypotheses :
  w_faults (na_world na_one) = [] /\ maps_ok (na_world na_one) /\ (st_id na_st < w_next (na_world na_one))%nat /\
  everywhere (readable_w 32) ex_one (PStorage na_st (na_world na_one)) /\
  everywhere (tame_w 32) ex_one (PStorage na_st (na_world na_one)) /\
  ~ everywhere (low 32) ex_one (PStorage na_st (na_world na_one)).
Proof.
  assert (F1 : forall c, found (PStorage na_st (na_world na_one)) "One.archive" (Some c) -> c = resource_bytes []) by (intros c H; vm_compute in H |- *; congruence).
  assert (F2 : forall c, found (PStorage na_st (na_world na_one)) "r" (Some c) -> c = le_bytes 8 (2 ^ 32 + 1) ++ [5] ++ zeros 8) by (intros c H; vm_compute in H |- *; congruence).
  assert (S : stored_ok (resource_bytes []) /\ stored_ok (le_bytes 8 (2 ^ 32 + 1) ++ [5] ++ zeros 8))
    by (split; (apply stored_check_ok; [vm_compute; reflexivity|vm_compute; congruence])).
  split; [reflexivity|]. split; [apply reader_world_ok|]. split; [vm_compute; lia|].
  split; [|split].
  - apply everywhere_eq. split; [|constructor]. constructor; [|constructor; [|constructor]].
    + split; [split; [eexists; reflexivity|]; split; [eexists; reflexivity|]|]; intros c H; rewrite (F1 c H); [apply S|vm_compute; congruence].
    + split; [split; [eexists; reflexivity|]; split; [eexists; reflexivity|]|]; intros c H; rewrite (F2 c H); [apply S|vm_compute; congruence].
  - apply everywhere_eq. split; [|constructor]. constructor; [|constructor; [|constructor]]; intros c H; [rewrite (F1 c H)|rewrite (F2 c H)]; intros _; vm_compute; reflexivity.
  - intros H. apply everywhere_eq in H. destruct H as (H & _). inversion H as [|? ? _ H']. inversion H' as [|? ? L _].
    specialize (L (le_bytes 8 (2 ^ 32 + 1) ++ [5] ++ zeros 8) ltac:(reflexivity) ltac:(vm_compute; congruence)). vm_compute in L. discriminate.
Qed.
