(** Property C109: creating an archive does not overwrite an archive that is there.
    Vocabulary: [same_disk] (files and directories are as before), [free_place],
    [tree_ok] (RedoSpec.v), [present] (StorageSpec.v); [w_faults] lists what happens to
    the system calls, of which the first one looks for the file of the signature. *)
From Verif Require Import Base BaseFacts Codec CodecSpec Structs StructsSpec Views ViewsSpec Storage PathFacts StorageSpec StorageFacts StorageMore PropsStorage.
From Verif Require Import Writers WritersSpec MultiViews MultiSpec PropsMultiViews Archives RedoSpec RedoFacts AgainSpec AgainFacts PropsAgain RerunSpec RerunFacts PropsRerun RebuildSpec RebuildFacts PropsRebuild.
Local Open Scope list_scope.
Local Open Scope Z_scope.

(** In memory it never does. *)
Theorem C109_memory b e id base aname schema w : present (MemStorage id base) (signature_name aname) w = true ->
  create_archive b e (MemStorage id base) aname schema w = (Ret (Er (EIo KAlreadyExists (signature_name aname))), w).
Proof.
  intros P. unfold create_archive, mtry, mbind. cbn [exists_]. cbn [present] in P.
  destruct (w_resources w id (res_key (MemStorage id base) (signature_name aname))); [reflexivity|].
  destruct (w_streams w id (res_key (MemStorage id base) (signature_name aname))); [reflexivity|discriminate].
Qed.
Print Assumptions C109_memory.

(** On disk it does not if the call that looks for the signature works or kills the
    process, whatever happens to other calls. *)
Theorem C109_file_partial b e id base aname schema w o w' : let n := signature_name aname in
  w_files w (file_of base n) <> None -> create_archive b e (FileStorage id base) aname schema w = (o, w') ->
  match w_faults w with
  | [] | FOk :: _ => o = Ret (Er (EIo KAlreadyExists n)) /\ same_disk w w'
  | FCrash _ :: _ => o = Crash /\ same_disk w w'
  | (FErr _ | FShort _ _) :: r =>
      (* the call fails: the signature is written as if it was not there *)
      exists x, write b e (FileStorage id base) n schema [] (set_faults r w) = (x, w') /\ (o = Ret (Ok tt) <-> x = Ret (Ok tt))
  end.
Proof.
  intros n E R. assert (X := create_present b e id base aname schema w o w' E R). fold n in X. clear R.
  assert (S : forall fs, same_disk w (set_faults fs w)) by (split; reflexivity).
  destruct (w_faults w) as [|[|k|m k|m] r]; destruct X as (-> & ->); [split; [reflexivity|split; reflexivity]|auto| | |auto].
  all: unfold mtry, mbind; destruct (write b e (FileStorage id base) n schema [] (set_faults r w)) as [[[[]|x]| | |] w2]; cbn; eexists; (split; [reflexivity|]);
    split; congruence.
Qed.
Print Assumptions C109_file_partial.

(** If only that call fails, an existing archive is replaced, whatever its signature was
    and whatever the other schema is. *)
Theorem C109_lost b e id base aname schema k w : let n := signature_name aname in
  valid_name aname -> tree_ok w -> free_place base n w -> w_files w (file_of base n) <> None -> w_faults w = [FErr k] ->
  exists w', create_archive b e (FileStorage id base) aname schema w = (Ret (Ok tt), w') /\ resource_added base n schema [] w w'.
Proof.
  intros n V T P E Hf. assert (Vn : valid_name n) by (apply valid_app; auto).
  destruct (create_archive b e (FileStorage id base) aname schema w) as [o w'] eqn:R.
  assert (X := create_present b e id base aname schema w o w' E R). rewrite Hf in X. fold n in X. destruct X as (-> & ->).
  destruct (redo_write b e id base n schema [] (set_faults [] w) Vn eq_refl P) as (w2 & W & A); [intros D x Hx; exact (T _ _ D Hx)|].
  exists w2. unfold mtry, mbind. rewrite W. split; [reflexivity|exact A].
Qed.
Print Assumptions C109_lost.

(** The same for a whole program that builds an archive (C108): if only its first call
    fails, it replaces the archive that is there. *)
Theorem C109_program b e lim id base a l k w : let st := FileStorage id base in let names := build_files a l in
  valid_name (ad_name a) -> Forall (fun r => valid_name (name_of r)) l -> NoDup names -> Forall (resource_ok st) l -> tree_ok w ->
  (forall n, In n names -> is_dir (file_of base n) w = false) -> base_ready base w -> new_object id w ->
  w_faults w = [FErr k] ->
  exists w2, build_all b e lim a st l w = (Ret true, w2) /\ Forall (in_place base w2) (signature a :: l) /\
    forall k, (forall n, In n names -> k <> file_of base n) -> w_files w2 k = w_files w k.
Proof. exact (overwrite_program b e lim id base a l k w). Qed.
Print Assumptions C109_program.

(** Whatever calls fail and wherever the process is killed, creating an archive changes
    no other file than the signature and its schema. *)
Theorem C109_only b e id base aname schema fs w o w' x :
  create_archive b e (FileStorage id base) aname schema (set_faults fs w) = (o, w') ->
  x <> file_of base (signature_name aname) -> x <> file_of base (schema_name (signature_name aname)) -> w_files w' x = w_files w x.
Proof. exact (overwrite_only b e id base aname schema fs w o w' x). Qed.
Print Assumptions C109_only.

(** An archive that opens, and another program with an archive of the same name but
    another schema: if the first call of the builder fails, the builder is made (instead
    of AlreadyExists) and the archive does not open any more. *)
Local Open Scope string_scope.
Local Open Scope list_scope.
Definition ow_disk : world := rb_kill [] rerun_all ex_w.
Definition ow_create (fs : list fault) := create_archive Debug LE (FileStorage 7 "/d/e") "G" [90] (set_faults fs ow_disk).
Theorem C109_file_refuted : let n := signature_name "G" in
  w_files ow_disk (file_of "/d/e" n) <> None /\ rb_open ow_disk = Some (Some [1; 2; 3], Some [1; 210; 1; 0; 0; 128], Some [7; 1; 2; 3; 200; 10; 0; 254; 255]) /\
  fst (ow_create []) = Ret (Er (EIo KAlreadyExists n)) /\ rb_open (snd (ow_create [])) = rb_open ow_disk /\
  fst (ow_create [FErr KOther]) = Ret (Ok tt) /\ rb_open (snd (ow_create [FErr KOther])) = None /\
  fst (ow_create [FErr KOther; FOk; FOk; FCrash 0]) = Crash /\ rb_open (snd (ow_create [FErr KOther; FOk; FOk; FCrash 0])) = None.
Proof. cbv zeta. split; [vm_compute; discriminate|]. vm_compute. repeat split; reflexivity. Qed.
Print Assumptions C109_file_refuted.
(** This disk also meets the hypotheses of C109_lost; an archive in memory. *)
Example C109_example :
  valid_name "G" /\ tree_ok (set_faults [FErr KOther] ow_disk) /\ free_place "/d/e" "G.archive" (set_faults [FErr KOther] ow_disk) /\
  w_files (set_faults [FErr KOther] ow_disk) (file_of "/d/e" "G.archive") <> None /\
  (forall n, In n (build_files rb_arch rerun_all) -> is_dir (file_of "/d/e" n) (set_faults [FErr KOther] ow_disk) = false) /\
  base_ready "/d/e" (set_faults [FErr KOther] ow_disk) /\ new_object 5 (set_faults [FErr KOther] ow_disk) /\
  let (o, w) := create_archive Debug LE ex_ms "G" [71; 72] ex_w in o = Ret (Ok tt) /\ present ex_ms (signature_name "G") w = true.
Proof.
  destruct C107_example as (_ & V & _ & K & T & _ & B & _). destruct C108_example as (Va & _ & ND & _ & _ & P & _).
  destruct (C108_again Debug LE 6 1 "/d/e" rb_arch rerun_all ex_w ex_w) as (w2 & R & _ & _ & D); auto.
  { apply history_none. split; reflexivity. } { split; [intros x p l H; discriminate H|reflexivity]. }
  assert (O : forall x, is_dir x (set_faults [FErr KOther] ow_disk) = is_dir x ex_w || is_prefix_of x (key_of "/d/e")).
  { intros x. rewrite <- D. unfold ow_disk, rb_kill. change (set_faults [] ex_w) with ex_w. rewrite R. reflexivity. }
  assert (B' : base_ready "/d/e" (set_faults [FErr KOther] ow_disk)) by (left; rewrite O; reflexivity).
  split; [exact Va|]. split; [|split; [|split; [vm_compute; discriminate|]]].
  3:{ split; [intros n H; rewrite O; cbn in H; intuition (subst; reflexivity)|]. split; [exact B'|]. split; [exact (again_new 5 _)|vm_compute; auto]. }
  - intros k x Hk Hx. rewrite O in *. apply orb_true_iff in Hk as [Hk|Hk]; apply orb_true_iff; [left; exact (T _ _ Hk Hx)|right].
    eapply is_prefix_of_trans; eauto.
  - split; [rewrite O; reflexivity|]. split; [rewrite O; reflexivity|]. exact B'.
Qed.
(** The program replaces the old archive of C108_mixed_example. *)
Example C109_program_example : let old := rb_kill [] rb_old ex_w in
  let run fs := build_all Debug LE 6 rb_arch (FileStorage 5 "/d/e") rerun_all (set_faults fs old) in
  rb_open old = Some (Some [9], Some [5; 0; 0], Some []) /\ fst (run []) = Ret false /\ rb_open (snd (run [])) = rb_open old /\
  fst (run [FErr KOther]) = Ret true /\
  rb_open (snd (run [FErr KOther])) = Some (Some [1; 2; 3], Some [1; 210; 1; 0; 0; 128], Some [7; 1; 2; 3; 200; 10; 0; 254; 255]).
Proof. vm_compute. repeat split; reflexivity. Qed.
