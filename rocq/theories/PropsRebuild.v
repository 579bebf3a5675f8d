(** Property C108: building an archive again after its signature was removed.
    Vocabulary (RebuildSpec.v, RerunSpec.v, RedoSpec.v, AgainSpec.v): [build_all] (make a
    builder, then write resources, vectors and multivectors with its storage; stop when
    something fails), [build_files] (the files of the signature and of the resources),
    [history] (any number of runs of such programs in which any system calls fail and
    which may be killed anywhere, and removals of any of these files between them),
    [in_place] (the files have the contents), [new_object] (a storage object that has
    read nothing), [tree_ok] (directories are in directories). *)
From Verif Require Import Base BaseFacts Codec CodecSpec Structs StructsSpec Views ViewsSpec Storage PathFacts StorageSpec StorageFacts PropsStorage.
From Verif Require Import Writers WritersSpec PropsExtVec MultiViews MultiSpec PropsMultiViews PropsMultiVec Archives RedoSpec RedoFacts AgainSpec AgainFacts PropsAgain RerunSpec RerunFacts RerunOk PropsRerun RebuildSpec RebuildFacts.
Local Open Scope list_scope.
Local Open Scope Z_scope.

(** If nothing was in the way at first and no two files coincide, then after any such
    history the program works without failing calls if the file of the signature is not
    there; nothing else has to be removed.  Afterwards the signature and all resources
    are in place, and all other files and directories are as at first. *)
Theorem C108_again b e lim id base a l w w1 : let st := FileStorage id base in let names := build_files a l in
  valid_name (ad_name a) -> Forall (fun r => valid_name (name_of r)) l -> NoDup names -> Forall (resource_ok st) l -> tree_ok w ->
  (forall n, In n names -> is_dir (file_of base n) w = false) -> base_ready base w ->
  history base names w w1 -> w_faults w1 = [] -> new_object id w1 -> w_files w1 (file_of base (signature_name (ad_name a))) = None ->
  exists w2, build_all b e lim a st l w1 = (Ret true, w2) /\ Forall (in_place base w2) (signature a :: l) /\
    (forall k, (forall n, In n names -> k <> file_of base n) -> w_files w2 k = w_files w k) /\
    forall x, is_dir x w2 = is_dir x w || is_prefix_of x (key_of base).
Proof. exact (rebuild b e lim id base a l w w1). Qed.
Print Assumptions C108_again.

(** A program that says it worked has worked, whatever calls failed on the way and
    whatever was in the directory. *)
Theorem C108_success b e lim id base a l fs w w' : let st := FileStorage id base in
  valid_name (ad_name a) -> Forall (fun r => valid_name (name_of r)) l -> NoDup (build_files a l) -> Forall (resource_ok st) l -> new_object id w ->
  build_all b e lim a st l (set_faults fs w) = (Ret true, w') -> Forall (in_place base w') (signature a :: l).
Proof.
  intros st Va V ND K (MO & N). rewrite build_all_eq. subst st. cbn [exists_]. unfold path_exists, mbind, syscall, next_fault. cbn [set_faults w_faults].
  assert (S : forall r, put_all b e lim (FileStorage id base) (signature a :: l) (set_faults r w) = (Ret true, w') -> Forall (in_place base w') (signature a :: l)).
  { intros r. apply C107_success; [constructor; [apply valid_app; auto|exact V]|exact ND|constructor; [exact I|exact K]|split; assumption]. }
  destruct fs as [|[|k|n k|n] r]; cbn [set_faults].
  1, 2: match goal with |- context [on_disk ?k ?x] => destruct (on_disk k x) end; [discriminate|apply S].
  1, 2: apply S.
  discriminate.
Qed.
Print Assumptions C108_success.

(** If it is there, with any contents, the program does nothing if no call fails
    (see C109 for failing calls). *)
Theorem C108_present b e lim id base a l w : w_faults w = [] -> w_files w (file_of base (signature_name (ad_name a))) <> None ->
  build_all b e lim a (FileStorage id base) l w = (Ret false, w).
Proof. exact (rebuild_present b e lim id base a l w). Qed.
Print Assumptions C108_present.

(** Runs and removals change nothing else. *)
Theorem C108_safe base names w w1 r : Forall valid_name names -> valid_name (name_of r) ->
  (forall n, In n (files_of r) -> ~ In n names) -> history base names w w1 -> in_place base w r -> in_place base w1 r.
Proof.
  intros V Vr N H. eapply in_place_spared; [eapply history_spared; exact H|].
  intros n I. assert (F := files_valid r Vr). rewrite Forall_forall in F. apply apart; auto.
Qed.
Print Assumptions C108_safe.

(** A run is killed while it writes the signature, so the next one does nothing.  The
    signature is removed; the next run is killed while it writes the vector, and the
    signature is removed again. *)
Local Open Scope string_scope.
Local Open Scope list_scope.
Definition rb_arch := mkArchive "G" [71; 72] [] [mkTyped "v" ex_struct [67] false] [mkMulti "x" ex_ts [65] "x_index" 4 32 false] [mkRaw "p" [80] false] [].
Definition rb_kill (fs : list fault) (l : list resource) (w : world) : world :=
  restart (snd (build_all Debug LE 6 rb_arch (FileStorage 1 "/d/e") l (set_faults fs w))).
Definition rb_remove (w : world) : world := set_files (kupd (file_of "/d/e" "G.archive") None (w_files w)) w.
Definition rb_killed1 : world := rb_kill (repeat FOk 5 ++ [FCrash 3]) rerun_all ex_w.
Definition rb_killed2 : world := rb_kill (repeat FOk 20 ++ [FCrash 1]) rerun_all (rb_remove rb_killed1).
Definition rb_files (w : world) := map (fun n => w_files w (file_of "/d/e" n)) (build_files rb_arch rerun_all).
Definition rb_open (w : world) :=
  match fst (open_archive Debug LE rb_arch (FileStorage 6 "/d/e") (restart w)) with
  | Ret (Ok x) => Some (option_map sl_bytes (get_raw x 0), option_map sl_bytes (get_vector x 0), option_map (fun v => sl_bytes (ma_data v)) (get_multi x 0))
  | _ => None
  end.
Lemma rb_kill_history names fs l w w1 : incl (build_files rb_arch l) names -> history "/d/e" names w w1 -> history "/d/e" names w (rb_kill fs l w1).
Proof.
  intros I H. unfold rb_kill. destruct (build_all Debug LE 6 rb_arch (FileStorage 1 "/d/e") l (set_faults fs w1)) as [o w2] eqn:E.
  eapply history_run; [exact H|exact I|exact E|split; reflexivity].
Qed.
Lemma rb_remove_history names w w1 : In "G.archive" names -> history "/d/e" names w w1 -> history "/d/e" names w (rb_remove w1).
Proof. intros I H. eapply history_remove; [exact H|exact I|reflexivity|reflexivity]. Qed.
Lemma rb_calm fs l w : w_faults (rb_remove (rb_kill fs l w)) = [].
Proof. reflexivity. Qed.
Lemma rb_new id fs l w : new_object id (rb_remove (rb_kill fs l w)).
Proof. exact (again_new id _). Qed.
Example C108_example : let w1 := rb_remove rb_killed2 in
  valid_name (ad_name rb_arch) /\ Forall (fun r => valid_name (name_of r)) rerun_all /\ NoDup (build_files rb_arch rerun_all) /\
  Forall (resource_ok (FileStorage 5 "/d/e")) rerun_all /\ tree_ok ex_w /\
  (forall n, In n (build_files rb_arch rerun_all) -> is_dir (file_of "/d/e" n) ex_w = false) /\ base_ready "/d/e" ex_w /\
  history "/d/e" (build_files rb_arch rerun_all) ex_w w1 /\ w_faults w1 = [] /\ new_object 5 w1 /\
  w_files w1 (file_of "/d/e" (signature_name (ad_name rb_arch))) = None /\
  rb_files rb_killed1 = [Some (zeros 11); None; None; None; None; None; None; None; None; None] /\
  w_files rb_killed1 (file_of "/d/e" (signature_name (ad_name rb_arch))) <> None /\
  rb_files rb_killed2 = [Some (zeros 16); Some [71; 72]; Some (resource_bytes [1; 2; 3]); Some [80]; None; Some [67]; None; None; None; None] /\
  let (o, w2) := build_all Release BE 100 rb_arch (FileStorage 5 "/d/e") rerun_all w1 in
  o = Ret true /\ rb_open w2 = Some (Some [1; 2; 3], Some [1; 210; 1; 0; 0; 128], Some [7; 1; 2; 3; 200; 10; 0; 254; 255]).
Proof.
  destruct C107_example as (_ & V & _ & K & T & _ & B & _). cbv zeta.
  split; [repeat split; discriminate|]. split; [exact V|].
  split; [repeat (constructor; [cbn; intuition discriminate|]); constructor|].
  split; [exact K|]. split; [exact T|]. split; [intros n H; cbn in H; intuition (subst; reflexivity)|]. split; [exact B|].
  split.
  { assert (G : In "G.archive" (build_files rb_arch rerun_all)) by (left; reflexivity).
    apply rb_remove_history; [exact G|]. apply rb_kill_history; [apply incl_refl|]. apply rb_remove_history; [exact G|].
    apply rb_kill_history; [apply incl_refl|]. apply history_none. split; reflexivity. }
  split; [apply rb_calm|]. split; [apply rb_new|]. split; [vm_compute; reflexivity|]. split; [vm_compute; reflexivity|].
  split; [vm_compute; discriminate|]. split; [vm_compute; reflexivity|]. vm_compute. split; reflexivity.
Qed.
(** Removing only the signature is not enough to keep old and new contents apart: a run
    wrote an archive, the signature was removed, and the next run was killed after it had
    written the signature and "p".  The archive opens, with the new "p" and the old "v"
    and "x". *)
Definition rb_old : list resource := [Plain "p" [80] [9]; Vector "v" [67] ex_struct [[(0%nat, 5)]]; Multi "x" [65] 4 32 ex_ts []].
Example C108_mixed_example :
  let old := rb_kill [] rb_old ex_w in
  let w1 := rb_kill (repeat FOk 14 ++ [FCrash 0]) rerun_all (rb_remove old) in
  history "/d/e" (build_files rb_arch rerun_all) ex_w w1 /\
  rb_open old = Some (Some [9], Some [5; 0; 0], Some []) /\ rb_open (rb_remove old) = None /\
  rb_open w1 = Some (Some [1; 2; 3], Some [5; 0; 0], Some []).
Proof.
  cbv zeta. split; [|vm_compute; repeat split; reflexivity].
  apply rb_kill_history; [apply incl_refl|]. apply rb_remove_history; [left; reflexivity|].
  apply rb_kill_history; [intros n H; exact H|]. apply history_none. split; reflexivity.
Qed.
(** The archive is built while calls that look for files fail; one that writes stops it. *)
Example C108_success_example :
  let run fs := build_all Release BE 100 rb_arch (FileStorage 5 "/d/e") rerun_all (set_faults fs (rb_remove rb_killed2)) in
  let fs := FOk :: FErr KOther :: repeat FOk 4 ++ [FErr KNotFound] in
  new_object 5 (rb_remove rb_killed2) /\ fst (run fs) = Ret true /\ List.length (w_faults (snd (run fs))) = 0%nat /\
  rb_files (snd (run fs)) = rb_files (snd (run [])) /\ fst (run (repeat FOk 4 ++ [FErr KOther])) = Ret false.
Proof. cbv zeta. split; [apply rb_new|]. vm_compute. repeat split; reflexivity. Qed.
