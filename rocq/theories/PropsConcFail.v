(** Properties C88 and C89: processes side by side whose system calls fail and
    which are killed.
    Vocabulary: [fstep], [fpool_run], [beside] in ConcFail.v; [spares], [process_ok],
    [separate], [unharmed] in ConcFailSpec.v; [job], [processes_ok] in Conc.v and
    ConcSpec.v. *)
From Verif Require Import Base BaseFacts Codec CodecSpec Storage PathFacts StorageSpec StorageFacts StorageMore PropsStorage Writers.
From Verif Require Import Conc ConcSpec ConcFacts ConcUse PropsConc ConcFail ConcFailSpec ConcFailFacts ConcFailUse ConcFailBytes.
Local Open Scope list_scope.
Local Open Scope Z_scope.

(** ** A process beside anything: whatever happens to the rest of the disk between
    its system calls and between the parts of its writes, its files are at any
    time as after a run alone (with some of the failures that it has met), and it
    ends as alone; after a success all its resources can be read. *)
Theorem C88_beside js w w' p' : process_ok w js -> beside (spares js) w (jobs_p js) w' p' -> unharmed js w p' w'.
Proof. apply beside_unharmed. Qed.
Print Assumptions C88_beside.

(** ** Processes with different files: no failure and no death of one of them
    harms another one, also when they share directories that do not exist yet;
    files of none of them are as before. *)
Theorem C88_processes pss w w' l : processes_ok w pss -> no_file_above (List.concat pss) w -> separate pss ->
  fpool_run w (map jobs_p pss) w' l ->
  (forall i js, nth_error pss i = Some js -> exists p', nth_error l i = Some p' /\ unharmed js w p' w') /\
  forall k, (forall js, In js pss -> ~ jobs_file js k) -> w_files w' k = w_files w k.
Proof. apply pool_unharmed. Qed.
Print Assumptions C88_processes.

(** ** The failures here are those of all other properties: what a process can do
    alone with failures, it can do in these steps; and runs without failures are
    those of C78 and C79. *)
Theorem C88_failures js w fs o v : process_ok w js -> jobs_m js (set_faults fs w) = (o, v) ->
  exists w', fpool_run w [jobs_p js] w' [Done o] /\ forall k, w_files w' k = w_files v k.
Proof. apply jobs_failures. Qed.
Print Assumptions C88_failures.
Theorem C88_no_failures {A} w (l : list (prog A)) w' l' : pool_run w l w' l' -> fpool_run w l w' l'.
Proof. apply pool_fpool. Qed.
Print Assumptions C88_no_failures.
(** ** No run goes on for ever, whatever fails. *)
Theorem C88_ends {A} (l : list (prog A)) w :
  ~ exists f : nat -> world * list (prog A), f 0%nat = (w, l) /\
      forall n, exists l1 p p' l2, snd (f n) = l1 ++ p :: l2 /\ snd (f (S n)) = l1 ++ p' :: l2 /\
        fstep (fst (f n)) p (fst (f (S n))) p'.
Proof. apply fpool_ends. Qed.
Print Assumptions C88_ends.

(** ** C89: whatever several processes write, whether their calls fail and when
    they die: at any time a file is as before, or each of its bytes is 0 or what
    one of the calls puts at this place. *)
Theorem C89_bytes_partial pss w w' l : (forall j, In j (List.concat pss) -> job_fits j) ->
  fpool_run w (map jobs_p pss) w' l -> forall k, w_files w' k = w_files w k \/
  exists c, w_files w' k = Some c /\ from_calls (List.concat pss) k c.
Proof. apply shared_bytes. Qed.
Print Assumptions C89_bytes_partial.
(** If the calls agree about a file, failures and deaths leave no other bytes
    in it than 0. *)
Theorem C89_agree_partial pss w w' l k C : (forall j, In j (List.concat pss) -> job_fits j) ->
  (forall j c, In j (List.concat pss) -> In (k, c) (job_files j) -> c = C) ->
  fpool_run w (map jobs_p pss) w' l -> w_files w' k = w_files w k \/
  exists c, w_files w' k = Some c /\ (List.length c <= List.length C)%nat /\
    forall i, (i < List.length c)%nat -> nth i c 0 = 0 \/ nth i c 0 = nth i C 0.
Proof.
  intros Hl Ag R. destruct (shared_bytes pss w w' l Hl R k) as [E|(c & E & (j & cy & Hj & Hc & L) & H)]; [auto|].
  right. exists c. split; auto. rewrite <- (Ag j cy Hj Hc). split; auto. intros i Hi. destruct (H i Hi) as [Z|(j' & c' & Hj' & Hc' & _ & Z)]; auto.
  right. rewrite Z, (Ag j' c' Hj' Hc'), (Ag j cy Hj Hc). auto.
Qed.
Print Assumptions C89_agree_partial.

(** Directories and files never get mixed up. *)
Theorem C89_tree pss w w' l : (forall j, In j (List.concat pss) -> job_fits j) ->
  fpool_run w (map jobs_p pss) w' l -> a_tree w -> a_tree w'.
Proof. intros Hl R. exact (proj2 (shared_run pss w w' l Hl R)). Qed.
Print Assumptions C89_tree.

(** ** Processes that write the same file do harm each other, even if they agree
    about everything: one has written its resource successfully, and the death of
    the other one makes it unreadable. *)
Definition cf_same b e : list (list job) := [[JWrite b e "/d" "x" ex_schema [1; 2; 3]]; [JWrite b e "/d" "x" ex_schema [1; 2; 3]]].
Theorem C89_shared_refuted b e : exists w w' d,
  let pss := [[JWrite b e "/d" "x" ex_schema d]; [JWrite b e "/d" "x" ex_schema d]] in
  processes_ok w pss /\ no_file_above (List.concat pss) w /\
  fpool_run w (map jobs_p pss) w' [Done (Ret (Ok tt)); Done Crash] /\
  forall b' e', fresh_read b' e' "/d" "x" ex_schema w' = Ret (Er (EIo KInvalidInput "x")).
Proof.
  set (r := fschedule (repeat (Go 0%nat) 20 ++ [Go 1%nat; Go 1%nat; Kill 1%nat]) ex_w (map jobs_p (cf_same b e))).
  exists ex_w, (fst r), [1; 2; 3]. cbv zeta. split; [conc_solve|]. split; [intros k n _; reflexivity|]. split.
  - replace [Done (Ret (Ok tt)); Done Crash] with (snd r); [apply fschedule_run|]. destruct b, e; vm_compute; reflexivity.
  - intros b' e'. destruct b, e, b', e'; vm_compute; reflexivity.
Qed.
Print Assumptions C89_shared_refuted.

(** ** Examples *)
(** Three processes in a directory that is not there at first.  The first creates
    an archive and writes "x", the second dies while it streams "y", the third
    cannot create the file "z"; the first two find that there is no directory, and
    both make it. *)
Definition cf_procs : list (list job) :=
  [[JCreate Debug LE "/d" "A" ex_schema; JWrite Debug LE "/d" "x" ex_schema [1; 2; 3]];
   [JStream Release BE "/d" "y" ex_schema [[4]; [5; 6]]];
   [JWrite Debug BE "/d" "z" ex_schema [7]]].
Definition cf_moves : list move :=
  [Go 0; Go 0; Go 1; Go 0; Go 1; Go 1; Go 2; Fail 2; Go 0]%nat ++ repeat (Go 1%nat) 7 ++ [Kill 1%nat] ++ repeat (Go 0%nat) 40.
Definition cf_run := fschedule cf_moves ex_w (map jobs_p cf_procs).
Lemma cf_separate : separate cf_procs.
Proof.
  assert (X : forall i js k, nth_error cf_procs i = Some js -> jobs_file js k ->
    In k (nth i [[key_of "/d/A.archive"; key_of "/d/A.archive.schema"; key_of "/d/x"; key_of "/d/x.schema"];
                 [key_of "/d/y"; key_of "/d/y.schema"]; [key_of "/d/z"; key_of "/d/z.schema"]] [])).
  { intros [|[|[|i]]] js k E (j & c & Hj & Hc); simpl in E; try (destruct i; discriminate); injection E as <-; simpl in Hj;
      repeat destruct Hj as [<-|Hj]; try destruct Hj; simpl in Hc; destruct Hc as [[= <- _]|[[= <- _]|[]]]; vm_compute; auto. }
  intros i i' js js' k E E' N H H'. assert (I1 := X i js k E H). assert (I2 := X i' js' k E' H'). clear X H H'.
  destruct i as [|[|[|i]]], i' as [|[|[|i']]]; try congruence; try (simpl in E; destruct i; discriminate); try (simpl in E'; destruct i'; discriminate);
    cbn in I1, I2; repeat match goal with H : _ \/ _ |- _ => destruct H | H : False |- _ => destruct H end; subst k; discriminate.
Qed.
Example C88_example :
  processes_ok ex_w cf_procs /\ no_file_above (List.concat cf_procs) ex_w /\ separate cf_procs /\
  is_dir (key_of "/d") ex_w = false /\
  snd cf_run = [Done (Ret (Ok tt)); Done Crash; Done (Ret (Er (EIo KOther "z")))] /\
  fpool_run ex_w (map jobs_p cf_procs) (fst cf_run) (snd cf_run) /\
  w_files (fst cf_run) (key_of "/d/y") = Some (zeros 8 ++ [4]) /\ w_files (fst cf_run) (key_of "/d/z") = None /\
  (forall b e, seen_data (fresh_read b e "/d" "x" ex_schema (fst cf_run)) = Ok [1; 2; 3]) /\
  data_ok [1; 2; 3] /\ schema_ok (FileStorage 0 "/d") ex_schema.
Proof.
  split; [conc_solve|]. split; [intros k n _; reflexivity|]. split; [apply cf_separate|]. split; [reflexivity|].
  split; [vm_compute; reflexivity|]. split; [apply fschedule_run|]. split; [vm_compute; reflexivity|]. split; [vm_compute; reflexivity|].
  split; [intros b e; destruct b, e; vm_compute; reflexivity|]. split; [|apply ex_schema_ok].
  split; [repeat (constructor; [unfold is_byte; lia|]); constructor|vm_compute; discriminate].
Qed.
(** A process that needs the directory "/d/e" is killed after it has made "/d". *)
Example C88_part_example b e : exists w',
  fpool_run ex_w [jobs_p [JWrite b e "/d/e" "x" ex_schema [1]]] w' [Done Crash] /\
  is_dir (key_of "/d") ex_w = false /\ is_dir (key_of "/d") w' = true /\ is_dir (key_of "/d/e") w' = false.
Proof.
  set (w' := set_dirs (fun x => w_dirs ex_w x || is_prefix_of x (fst (key_of "/d/e"), firstn 1 (snd (key_of "/d/e")))) ex_w).
  exists w'. split; [|vm_compute; auto].
  destruct (jobs_p [JWrite b e "/d/e" "x" ex_schema [1]]) as [|k f| | | |] eqn:E; try discriminate E.
  assert (Ek : k = key_of "/d/e") by (cbn in E; congruence).
  assert (Ef : exists g, f false = MkDirs k g) by (cbn in E; injection E as <- <-; eexists; reflexivity). destruct Ef as (g & Ef).
  apply (frun_move ex_w [] (Stat k f) [] ex_w (MkDirs k g)).
  { rewrite <- Ef, Ek. apply fs_ok. apply (step_stat ex_w (key_of "/d/e") f). }
  subst k. apply (frun_move ex_w [] (MkDirs (key_of "/d/e") g) [] w' (MkDirs (key_of "/d/e") g)).
  { apply fs_ok, step_mkdir; reflexivity. }
  apply (frun_move w' [] (MkDirs (key_of "/d/e") g) [] w' (Done Crash)); [apply fs_killed; discriminate|constructor].
Qed.
(** Something else happens between the steps: a file appears in the same
    directory, another one disappears, and there is a new directory. *)
Definition cf_before := put "/d/old" [1] ex_w.
Definition cf_after := set_dirs (fun k => key_eqb k (key_of "/d/sub")) (put "/d/new" [2] ex_w).
Example C88_beside_example :
  let js := [JWrite Debug LE "/d" "x" ex_schema [1; 2; 3]] in
  process_ok cf_before js /\ spares js cf_before cf_after /\ w_files cf_after (key_of "/d/old") = None /\
  exists w', beside (spares js) cf_before (jobs_p js) w' (jobs_p js) /\ w_files w' (key_of "/d/new") = Some [2].
Proof.
  cbv zeta. assert (Fk : forall k, jobs_file [JWrite Debug LE "/d" "x" ex_schema [1; 2; 3]] k -> k = key_of "/d/x" \/ k = key_of "/d/x.schema").
  { intros k (j & c & [<-|[]] & Hc). simpl in Hc. destruct Hc as [[= <- _]|[[= <- _]|[]]]; auto. }
  assert (Fb : forall b n, jobs_base [JWrite Debug LE "/d" "x" ex_schema [1; 2; 3]] b -> b = key_of "/d" /\
     (above b n = (true, []) \/ above b n = key_of "/d")).
  { intros b n (j & [<-|[]] & ->). split; auto. destruct n as [|[|n]]; vm_compute; auto. }
  assert (Sp : spares [JWrite Debug LE "/d" "x" ex_schema [1; 2; 3]] cf_before cf_after).
  { split.
    - intros k Hk. destruct (Fk k Hk) as [->| ->]; vm_compute; auto.
    - intros b Hb. destruct (Fb b 0%nat Hb) as (-> & _). split; [vm_compute; auto|].
      intros n _. destruct (Fb _ n Hb) as (_ & [->| ->]); vm_compute; auto. }
  split; [|split; [exact Sp|split; [reflexivity|]]].
  - split; [|split].
    + intros j [<-|[]]. split; [split; [exact I|intros p [<-|[]]; vm_compute; discriminate]|]. intros p [<-|[]]. split; [conc_name|].
      split; (split; [reflexivity|left; split; [conc_name|right; intros [|[|n]]; reflexivity]]).
    + intros j j' k c [<-|[]] [<-|[]] [[= <- _]|[[= <- _]|[]]]; reflexivity.
    + intros b n Hb. destruct (Fb _ n Hb) as (_ & [->| ->]); vm_compute; auto.
  - exists cf_after. split; [|reflexivity]. eapply beside_theirs; [exact Sp|constructor].
Qed.
(** The two processes of above that agree; the second dies after it has written
    the size: 3, and no data. *)
Definition cf_dead b e := fschedule (repeat (Go 0%nat) 20 ++ repeat (Go 1%nat) 4 ++ [Kill 1%nat]) ex_w (map jobs_p (cf_same b e)).
Example C89_example b e :
  (forall j, In j (List.concat (cf_same b e)) -> job_fits j) /\
  (forall j c, In j (List.concat (cf_same b e)) -> In (key_of "/d/x", c) (job_files j) -> c = resource_bytes [1; 2; 3]) /\
  fpool_run ex_w (map jobs_p (cf_same b e)) (fst (cf_dead b e)) (snd (cf_dead b e)) /\
  snd (cf_dead b e) = [Done (Ret (Ok tt)); Done Crash] /\
  w_files (fst (cf_dead b e)) (key_of "/d/x") = Some (le_bytes 8 3).
Proof.
  split; [intros j [<-|[<-|[]]]; (split; [exact I|intros p [<-|[]]; vm_compute; discriminate])|].
  split; [intros j c [<-|[<-|[]]] [[= <-]|[[=]|[]]]; reflexivity|].
  split; [apply fschedule_run|]. destruct b, e; vm_compute; auto.
Qed.
(** One process wants a directory where another one has put a file. *)
Definition cf_clash : list (list job) :=
  [[JWrite Debug LE "/d" "x" ex_schema [1; 2; 3]]; [JWrite Debug LE "/d/x" "y" ex_schema [4]]].
Definition cf_clash_run := fschedule (repeat (Go 0%nat) 20 ++ repeat (Go 1%nat) 20) ex_w (map jobs_p cf_clash).
Example C89_tree_example :
  a_tree ex_w /\ fpool_run ex_w (map jobs_p cf_clash) (fst cf_clash_run) (snd cf_clash_run) /\
  snd cf_clash_run = [Done (Ret (Ok tt)); Done (Ret (Er (EIo KOther "y")))] /\
  is_dir (key_of "/d") (fst cf_clash_run) = true /\ is_dir (key_of "/d/x") (fst cf_clash_run) = false /\
  w_files (fst cf_clash_run) (key_of "/d/x") = Some (resource_bytes [1; 2; 3]).
Proof.
  split; [|split; [apply fschedule_run|vm_compute; repeat split]].
  intros k. split; [reflexivity|]. intros [H|H]; [|destruct (H eq_refl)].
  unfold is_dir in *. cbn in *. destruct k as [r [|c l]]; [reflexivity|discriminate].
Qed.
