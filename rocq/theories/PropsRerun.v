(** Property C107: running a program that writes several resources again, after runs
    that failed or were interrupted.
    Vocabulary (RerunSpec.v, RedoSpec.v, AgainSpec.v): [resource] (a resource, an
    external vector or a multivector with its contents), [put_all] (the program: write
    them one after the other with one storage object and stop when something fails),
    [tried_all] (any number of runs of such programs, perhaps of others that write the
    same files, in which any system calls fail and which may be killed anywhere),
    [in_place] (the files have the contents),
    [get_all] (reading them with one storage object), [shown] (what was read has the
    contents), [stored] (what was read is in the files), [new_object] (a storage object that has
    read nothing), [tree_ok] (directories are in directories). *)
From Verif Require Import Base BaseFacts Codec CodecSpec Structs StructsSpec Views ViewsSpec Storage PathFacts StorageSpec StorageFacts PropsStorage.
From Verif Require Import Writers WritersSpec PropsExtVec MultiViews MultiSpec PropsMultiViews PropsMultiVec RedoSpec RedoFacts AgainSpec AgainFacts PropsAgain RerunSpec RerunFacts RerunOk.
Local Open Scope list_scope.
Local Open Scope Z_scope.

(** If nothing was in the way at first and no two resources share a file, the program
    works without failing calls after any such runs.  Afterwards all resources are in
    place, and all other files and directories are as at first. *)
Theorem C107_program b e lim id base l w w1 : let st := FileStorage id base in
  l <> [] -> Forall (fun r => valid_name (name_of r)) l -> NoDup (all_files l) -> Forall (resource_ok st) l -> tree_ok w ->
  (forall n, In n (all_files l) -> is_dir (file_of base n) w = false) -> base_ready base w ->
  tried_all base (all_files l) w w1 -> w_faults w1 = [] -> new_object id w1 ->
  exists w2, put_all b e lim st l w1 = (Ret true, w2) /\ Forall (in_place base w2) l /\
    (forall k, (forall n, In n (all_files l) -> k <> file_of base n) -> w_files w2 k = w_files w k) /\
    forall x, is_dir x w2 = is_dir x w || is_prefix_of x (key_of base).
Proof.
  intros st Ne V ND K T P B Tr Hf N.
  destruct (rerun b e lim id base l (all_files l) w w1 Ne V ND K T P B (all_files_valid l V) Tr Hf N) as (w2 & R & Pl & F & _ & D).
  exists w2. split; [exact R|]. split; [exact Pl|]. split; [|exact D].
  intros k H. apply F. intros (n & I & E). apply in_app_or in I. apply (H n); [tauto|exact E].
Qed.
Print Assumptions C107_program.

(** A program that says it worked has worked, whatever calls failed on the way and
    whatever was in the directory. *)
Theorem C107_success b e lim id base l fs w w' : let st := FileStorage id base in
  Forall (fun r => valid_name (name_of r)) l -> NoDup (all_files l) -> Forall (resource_ok st) l -> new_object id w ->
  put_all b e lim st l (set_faults fs w) = (Ret true, w') -> Forall (in_place base w') l.
Proof.
  intros st V ND K (MO & N) R. eapply (put_all_success b e lim id base l (set_faults fs w)); [exact V|exact ND|exact K|exact MO| |exact R].
  intros n _. apply N.
Qed.
Print Assumptions C107_success.

(** Runs may also have written other resources into the directory: what they left of
    these stays as it is. *)
Theorem C107_others b e lim id base l names w w1 : let st := FileStorage id base in
  l <> [] -> Forall (fun r => valid_name (name_of r)) l -> NoDup (all_files l) -> Forall (resource_ok st) l -> tree_ok w ->
  (forall n, In n (all_files l) -> is_dir (file_of base n) w = false) -> base_ready base w ->
  Forall valid_name names -> tried_all base names w w1 -> w_faults w1 = [] -> new_object id w1 ->
  exists w2, put_all b e lim st l w1 = (Ret true, w2) /\ Forall (in_place base w2) l /\
    (forall k, (forall n, In n (all_files l) -> k <> file_of base n) -> w_files w2 k = w_files w1 k) /\
    forall x, is_dir x w2 = is_dir x w || is_prefix_of x (key_of base).
Proof.
  intros st Ne V ND K T P B Vn Tr Hf N.
  destruct (rerun b e lim id base l names w w1 Ne V ND K T P B Vn Tr Hf N) as (w2 & R & Pl & _ & F & D).
  exists w2. split; [exact R|]. split; [exact Pl|]. split; [|exact D].
  intros k H. apply F. intros (n & I & E). exact (H n I E).
Qed.
Print Assumptions C107_others.

(** Runs change nothing else: a resource that shares no file with them stays in place. *)
Theorem C107_safe base names w w1 r : Forall valid_name names -> valid_name (name_of r) ->
  (forall n, In n (files_of r) -> ~ In n names) -> tried_all base names w w1 -> in_place base w r -> in_place base w1 r.
Proof.
  intros V Vr N T. eapply in_place_spared; [eapply tried_all_spared; exact T|].
  intros n H. assert (F := files_valid r Vr). rewrite Forall_forall in F. apply apart; auto.
Qed.
Print Assumptions C107_safe.

(** If something was in the way, the program never works. *)
Theorem C107_blocked b e lim id base l names fs w w1 o w2 : Forall (fun r => valid_name (name_of r)) l -> Forall valid_name names ->
  (exists n, In n (all_files l) /\ is_dir (file_of base n) w = true) \/ l <> [] /\ ~ base_ready base w ->
  tried_all base names w w1 -> put_all b e lim (FileStorage id base) l (set_faults fs w1) = (o, w2) -> o <> Ret true.
Proof. exact (rerun_blocked b e lim id base l names fs w w1 o w2). Qed.
Print Assumptions C107_blocked.

(** Any process reads resources that are in place, in one go with one storage object:
    every one is accepted and has its contents (C107_program puts them in place). *)
Theorem C107_read b e id base l w : let st := FileStorage id base in
  Forall (readable st) l -> Forall (in_place base w) l -> disk_ok w -> w_faults w = [] -> new_object id w ->
  exists x w', get_all b e st l w = (Ret (Some x), w') /\ Forall2 shown l x.
Proof. exact (rerun_read b e id base l w). Qed.
Print Assumptions C107_read.

(** Conversely, whatever the directory contains and whatever calls fail: if reading
    works, the files of every resource have the bytes that were read, with the expected
    schemas. *)
Theorem C107_read_sound b e id base l w x w' : disk_ok w -> new_object id w ->
  get_all b e (FileStorage id base) l w = (Ret (Some x), w') -> Forall2 (stored base w) l x.
Proof. exact (rerun_stored b e id base l w x w'). Qed.
Print Assumptions C107_read_sound.

(** A resource, a vector and a multivector.  Before they are written, a process is
    killed while it writes the vector, one writes other kinds of resources with the same
    names and fails, and one writes "y" and is killed in the schema. *)
Local Open Scope string_scope.
Local Open Scope list_scope.
Definition rerun_all := [Plain "p" [80] [1; 2; 3]; Vector "v" [67] ex_struct again_sets; Multi "x" [65] 4 32 ex_ts again_items].
Definition rerun_kill (fs : list fault) (l : list resource) (w : world) : world :=
  restart (snd (put_all Debug LE 6 (FileStorage 1 "/d/e") l (set_faults fs w))).
Definition rerun_killed1 : world := rerun_kill (repeat FOk 14 ++ [FCrash 3]) rerun_all ex_w.
Definition rerun_killed2 : world :=
  rerun_kill (repeat FOk 19 ++ [FErr KOther]) [Vector "p" [66] (index_struct 1 8) (repeat [(0%nat, 7)] 2); Plain "x" [81; 82] [9; 9; 9; 9]] rerun_killed1.
Definition rerun_killed3 : world := rerun_kill (repeat FOk 7 ++ [FCrash 1]) [Plain "y" [83; 84] [5]] rerun_killed2.
Lemma rerun_kill_tried names fs l w w1 : incl (all_files l) names -> tried_all "/d/e" names w w1 -> tried_all "/d/e" names w (rerun_kill fs l w1).
Proof.
  intros I T. unfold rerun_kill. destruct (put_all Debug LE 6 (FileStorage 1 "/d/e") l (set_faults fs w1)) as [o w2] eqn:E.
  eapply all_again; [exact T|exact I|exact E|split; reflexivity].
Qed.
Definition rerun_files (w : world) := map (fun n => w_files w (file_of "/d/e" n)) (all_files rerun_all ++ ["y"; "y.schema"]).
Example C107_example :
  rerun_all <> [] /\ Forall (fun r => valid_name (name_of r)) rerun_all /\ NoDup (all_files rerun_all) /\
  Forall (resource_ok (FileStorage 5 "/d/e")) rerun_all /\ tree_ok ex_w /\
  (forall n, In n (all_files rerun_all) -> is_dir (file_of "/d/e" n) ex_w = false) /\ base_ready "/d/e" ex_w /\
  tried_all "/d/e" (all_files rerun_all) ex_w rerun_killed2 /\ w_faults rerun_killed2 = [] /\ new_object 5 rerun_killed2 /\
  tried_all "/d/e" (all_files rerun_all ++ ["y"; "y.schema"]) ex_w rerun_killed3 /\ w_faults rerun_killed3 = [] /\ new_object 5 rerun_killed3 /\
  rerun_files rerun_killed1 = [Some (resource_bytes [1; 2; 3]); Some [80]; Some (zeros 3); Some [67]; None; None; None; None; None; None] /\
  rerun_files rerun_killed3 = [Some (resource_bytes [7; 7]); Some [66]; Some (zeros 3); Some [67]; Some ([4; 0; 0; 0] ++ zeros 4 ++ [9; 9; 9; 9]); None; None; None;
    Some (resource_bytes [5]); Some [83]] /\
  let (o, w2) := put_all Release BE 100 (FileStorage 5 "/d/e") rerun_all rerun_killed3 in
  o = Ret true /\
  rerun_files w2 = [Some (resource_bytes [1; 2; 3]); Some [80]; Some (resource_bytes [1; 210; 1; 0; 0; 128]); Some [67];
    Some (resource_bytes [7; 1; 2; 3; 200; 10; 0; 254; 255]); Some [65];
    Some (resource_bytes [0; 0; 0; 0; 4; 0; 0; 0; 4; 0; 0; 0; 9; 0; 0; 0]); Some (index_schema [65]);
    Some (resource_bytes [5]); Some [83]].
Proof.
  split; [discriminate|]. split; [repeat constructor; discriminate|].
  split; [repeat (constructor; [cbn; intuition discriminate|]); constructor|].
  split.
  { constructor; [exact I|]. constructor; [|constructor; [|constructor]].
    - split; [apply ex_struct_wf|]. split; [apply again_schema|].
      split; [repeat (constructor; [repeat (constructor; [split; cbn; lia|]); constructor|]); constructor|unfold isize_max; vm_compute; congruence].
    - split; [apply ex_index_wf|]. split; [apply ex_ts_wf|]. split; [apply mx_schema|].
      split; [repeat (constructor; [repeat (constructor; [split; [cbn; lia|repeat (constructor; [split; cbn; lia|]); constructor]|]); constructor|]); constructor|].
      split; [vm_compute; congruence|]; split; unfold isize_max; vm_compute; congruence. }
  split; [apply again_tree|]. split; [intros n H; cbn in H; intuition (subst; reflexivity)|]. split; [right; reflexivity|].
  assert (A : forall n, In n (all_files rerun_all) -> In n (all_files rerun_all ++ ["y"; "y.schema"])) by (intros; apply in_or_app; auto).
  assert (I1 : incl (all_files [Vector "p" [66] (index_struct 1 8) (repeat [(0%nat, 7)] 2); Plain "x" [81; 82] [9; 9; 9; 9]]) (all_files rerun_all))
    by (intros n H; cbn in H |- *; intuition).
  split; [apply rerun_kill_tried; [exact I1|]; apply rerun_kill_tried; [apply incl_refl|]; apply all_not; split; reflexivity|].
  split; [reflexivity|]. split; [apply again_new|].
  split.
  { apply rerun_kill_tried; [intros n H; cbn in H |- *; intuition|]. apply rerun_kill_tried; [intros n H; apply A, I1, H|].
    apply rerun_kill_tried; [exact A|]. apply all_not; split; reflexivity. }
  split; [reflexivity|]. split; [apply again_new|]. split; [vm_compute; reflexivity|]. split; [vm_compute; reflexivity|]. vm_compute. split; reflexivity.
Qed.
(** The last run again, with calls that fail: it works if these look for the directory,
    and says that it failed if one of them writes. *)
Example C107_success_example :
  let run fs := put_all Release BE 100 (FileStorage 5 "/d/e") rerun_all (set_faults fs rerun_killed3) in
  let fs := FErr KOther :: repeat FOk 5 ++ FErr KNotFound :: repeat FOk 3 ++ [FErr KOther] in
  new_object 5 rerun_killed3 /\ fst (run fs) = Ret true /\ length (w_faults (snd (run fs))) = 0%nat /\
  rerun_files (snd (run fs)) = rerun_files (snd (run [])) /\
  fst (run (repeat FOk 4 ++ [FErr KOther])) = Ret false.
Proof. cbv zeta. split; [apply again_new|]. vm_compute. repeat split; reflexivity. Qed.
(** In the second case the vector fails after the resource was written. *)
Example C107_blocked_example :
  let run w := put_all Debug LE 6 (FileStorage 1 "/d/e") rerun_all w in
  ~ base_ready "/d/e" again_file /\ fst (run again_file) = Ret false /\
  is_dir (file_of "/d/e" "v") (make_dirs (key_of "/d/e/v") 3 ex_w) = true /\
  fst (run (make_dirs (key_of "/d/e/v") 3 ex_w)) = Ret false /\
  rerun_files (snd (run (make_dirs (key_of "/d/e/v") 3 ex_w))) =
    [Some (resource_bytes [1; 2; 3]); Some [80]; None; Some [67]; None; None; None; None; None; None].
Proof.
  cbv zeta. split; [|vm_compute; repeat split; reflexivity].
  intros [H|H]; [vm_compute in H; discriminate H|]. specialize (H 1%nat). vm_compute in H. discriminate H.
Qed.
(** The files of the first example are read by another process; before the last run
    they are not accepted. *)
Definition rerun_done : world := restart (snd (put_all Release BE 100 (FileStorage 5 "/d/e") rerun_all rerun_killed3)).
Example C107_read_example :
  Forall (readable (FileStorage 6 "/d/e")) rerun_all /\ Forall (in_place "/d/e" rerun_done) rerun_all /\
  disk_ok rerun_done /\ w_faults rerun_done = [] /\ new_object 6 rerun_done /\
  match fst (get_all Debug LE (FileStorage 6 "/d/e") rerun_all rerun_done) with
  | Ret (Some x) => map (map sl_bytes) x =
      [[[1; 2; 3]]; [[1; 210; 1; 0; 0; 128]]; [[0; 0; 0; 0; 4; 0; 0; 0; 4; 0; 0; 0; 9; 0; 0; 0]; [7; 1; 2; 3; 200; 10; 0; 254; 255]]]
  | _ => False
  end /\
  fst (get_all Debug LE (FileStorage 6 "/d/e") rerun_all rerun_killed3) = Ret None.
Proof.
  destruct C107_example as (Ne & V & ND & K & T & P & B & _ & _ & _ & Tr & Hf & N & _).
  assert (Vn : Forall valid_name (all_files rerun_all ++ ["y"; "y.schema"])) by (repeat constructor; discriminate).
  destruct (rerun Release BE 100 5 "/d/e" rerun_all _ ex_w rerun_killed3 Ne V ND K T P B Vn Tr Hf N) as (w2 & R & Pl & Fs & _).
  split.
  { constructor; [|constructor; [|constructor; [|constructor]]].
    - split; [reflexivity|]. split; [repeat constructor; unfold is_byte; lia|]. split; [vm_compute; congruence|discriminate].
    - apply again_schema.
    - apply mx_schema. }
  split; [unfold rerun_done; rewrite R; exact Pl|].
  split; [|split; [reflexivity|split; [apply again_new|vm_compute; split; reflexivity]]].
  intros k c H. destruct (in_dec key_eq_dec k (map (file_of "/d/e") (all_files rerun_all ++ ["y"; "y.schema"]))) as [I0|I0].
  - assert (Ef : Forall (fun k => exists c, w_files rerun_done k = Some c /\ stored_ok c) (map (file_of "/d/e") (all_files rerun_all ++ ["y"; "y.schema"]))).
    { repeat (constructor; [eexists; split; [vm_compute; reflexivity|split; [repeat constructor; unfold is_byte; lia|unfold isize_max; vm_compute; congruence]]|]). constructor. }
    rewrite Forall_forall in Ef. destruct (Ef k I0) as (c' & E & S). congruence.
  - exfalso. unfold rerun_done in H. rewrite R in H. cbn [snd restart w_files] in H. rewrite Fs in H; [discriminate H|].
    intros (n & I1 & ->). apply I0, in_map. apply in_app_or in I1 as [I1|I1]; [exact I1|apply in_or_app; auto].
Qed.
