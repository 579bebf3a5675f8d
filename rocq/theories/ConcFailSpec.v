(** Vocabulary for C88: what others may do to the disk while a process runs, and
    when two processes have nothing to do with each other. *)
From Verif Require Import Base Storage PathFacts StorageSpec Conc ConcSpec.
Local Open Scope list_scope.
Local Open Scope Z_scope.

(** The files of the calls, and the directories of their storages. *)
Definition jobs_file (js : list job) (k : key) : Prop := exists j c, In j js /\ In (k, c) (job_files j).
Definition jobs_base (js : list job) (b : key) : Prop := exists j, In j js /\ b = key_of (job_base j).
(** The path of a directory and the paths above it. *)
Definition above (b : key) (n : nat) : key := (fst b, firstn n (snd b)).

(** Others do not touch the files, make no directory at their places, do not
    remove the directories of the storages and put no files at these places or
    above.  Everything else is up to them. *)
Definition spares (js : list job) (w w' : world) : Prop :=
  (forall k, jobs_file js k -> w_files w' k = w_files w k /\ is_dir k w' = is_dir k w) /\
  (forall b, jobs_base js b -> (is_dir b w = true -> is_dir b w' = true) /\
     forall n, w_files w (above b n) = None -> w_files w' (above b n) = None).

(** No file where a storage needs a directory. *)
Definition no_file_above (js : list job) (w : world) : Prop :=
  forall b n, jobs_base js b -> w_files w (above b n) = None.
(** What a process needs. *)
Definition process_ok (w : world) (js : list job) : Prop :=
  (forall j, In j js -> job_ok w j) /\ jobs_apart js /\ no_file_above js w.

(** The files are as if the process had run alone from [w], with some failures,
    and had ended with [o]. *)
Definition as_alone (js : list job) (w : world) (o : outcome (result unit rs_error)) (w' : world) : Prop :=
  exists fs v, jobs_m js (set_faults fs w) = (o, v) /\ forall k, jobs_file js k -> w_files w' k = w_files v k.

(** No two of the processes write the same file. *)
Definition separate (pss : list (list job)) : Prop :=
  forall i i' js js' k, nth_error pss i = Some js -> nth_error pss i' = Some js' -> i <> i' ->
    jobs_file js k -> ~ jobs_file js' k.

(** What is known of a process that has come to [p']: when it is done, it ended as
    alone with some failures, and after a success every file holds what was put
    there last and can be read; before that, its files are as if it had been
    killed now, alone. *)
Definition unharmed (js : list job) (w : world) (p' : prog (result unit rs_error)) (w' : world) : Prop :=
  (forall o, p' = Done o -> as_alone js w o w') /\
  ((forall o, p' <> Done o) -> as_alone js w Crash w') /\
  (p' = Done (Ret (Ok tt)) ->
     (forall k c, final js k = Some c -> w_files w' k = Some c) /\
     forall j p b e, In j js -> In p (job_parts j) ->
       final js (part_key (job_base j) p) = Some (resource_bytes (pt_data p)) -> final js (part_schema_key (job_base j) p) = Some (pt_schema p) ->
       data_ok (pt_data p) -> schema_ok (FileStorage 0 (job_base j)) (pt_schema p) ->
       exists sl, fresh_read b e (job_base j) (pt_name p) (pt_schema p) w' = Ret (Ok sl) /\ sl_bytes sl = pt_data p).

(** Every byte of [c] is 0 or at its place in what a call wants to put into the
    file, and no call wants a file that is shorter than all of [c]. *)
Definition from_calls (js : list job) (k : key) (c : list Z) : Prop :=
  (exists j cy, In j js /\ In (k, cy) (job_files j) /\ (List.length c <= List.length cy)%nat) /\
  forall i, (i < List.length c)%nat -> nth i c 0 = 0 \/
    exists j cy, In j js /\ In (k, cy) (job_files j) /\ (i < List.length cy)%nat /\ nth i c 0 = nth i cy 0.

(** The disk is a tree: no path is a file and a directory, and what exists is in a
    directory. *)
Definition a_tree (w : world) : Prop :=
  forall k, (is_dir k w = true -> w_files w k = None) /\
    (is_dir k w = true \/ w_files w k <> None -> is_dir (parent k) w = true).
