(** Properties C78 and C79: several processes that write resources and create
    archives at the same place at once.
    Vocabulary: [job], [pool_run] (any interleaving of system calls, writes in
    any parts) in Conc.v; [job_files], [final], [processes_ok], [ended] in
    ConcSpec.v. *)
From Verif Require Import Base BaseFacts Codec CodecSpec Storage PathFacts StorageSpec StorageFacts StorageMore PropsStorage Writers.
From Verif Require Import Conc ConcSpec ConcFacts ConcUse.
Local Open Scope list_scope.
Local Open Scope Z_scope.

(** ** The programs: alone, with all failures, a process does what the functions
    of the other properties do (a closed handle up to its last step, which reads
    the resource). *)
Theorem C78_alone js w : interp (jobs_p js) w = jobs_m js w.
Proof. apply interp_jobs. Qed.
Print Assumptions C78_alone.
Theorem C78_close b e h w :
  match finish_handle b e h w with
  | (Ret (Ok _, h'), w') => handle_close b e h w = (let! d := read b e (h_storage h) (h_name h) (h_schema h) in mret (d, h')) w'
  | (Ret (Er x, h'), w') => exists h'', handle_close b e h w = (Ret (Er x, h''), w') /\ is_open h'' = is_open h'
  | (Panic, w') => handle_close b e h w = (Panic, w')
  | (UB, w') => handle_close b e h w = (UB, w')
  | (Crash, w') => handle_close b e h w = (Crash, w')
  end.
Proof. apply close_is_finish. Qed.
Print Assumptions C78_close.

(** ** Every run ends, and as long as a process is not done, there is a next
    step. *)
Theorem C78_ends {A} (l : list (prog A)) w :
  ~ exists f : nat -> world * list (prog A), f 0%nat = (w, l) /\
      forall n, pool_step (fst (f n)) (snd (f n)) (fst (f (S n))) (snd (f (S n))).
Proof. apply pool_ends. Qed.
Print Assumptions C78_ends.
Theorem C78_goes_on {A} (l : list (prog A)) w :
  (exists os, l = map Done os) \/ exists w' l', pool_step w l w' l'.
Proof. apply pool_can_step. Qed.
Print Assumptions C78_goes_on.

(** ** C78: processes of any builds and byte orders whose calls agree about the
    contents of files.  When all are done: each has done all its calls, or all up
    to the creation of an archive whose signature it found; every file of the
    calls that were done is complete and can be read; every other file is as
    before. *)
Theorem C78_agree pss w w' os (C : key -> list Z) : processes_ok w pss ->
  (forall j k c, In j (List.concat pss) -> In (k, c) (job_files j) -> c = C k) ->
  pool_run w (map jobs_p pss) w' (map Done os) ->
  exists ds, Forall2 (fun js x => ended w' js (fst x) (snd x)) pss (combine ds os) /\
    List.length ds = List.length pss /\ List.length os = List.length pss /\
    (forall d j k c, In d ds -> In j d -> In (k, c) (job_files j) -> w_files w' k = Some c) /\
    (forall d j p b e, In d ds -> In j d -> In p (job_parts j) -> data_ok (pt_data p) -> schema_ok (FileStorage 0 (job_base j)) (pt_schema p) ->
      exists sl, fresh_read b e (job_base j) (pt_name p) (pt_schema p) w' = Ret (Ok sl) /\ sl_bytes sl = pt_data p) /\
    (forall k, (forall d j c, In d ds -> In j d -> ~ In (k, c) (job_files j)) -> w_files w' k = w_files w k).
Proof. apply processes_agree_read. Qed.
Print Assumptions C78_agree.

(** ** Creators of the same archive: if it was not there, at least one succeeds,
    the others succeed, too, or are told that it exists, and it is there. *)
Theorem C78_create bes base aname aschema w w' os :
  let js := fun be : build * endian => [JCreate (fst be) (snd be) base aname aschema] in
  bes <> [] -> valid_name (signature_name aname) -> unblocked (FileStorage 0 base) (signature_name aname) w ->
  w_files w (res_key (FileStorage 0 base) (signature_name aname)) = None ->
  pool_run w (map (fun be => jobs_p (js be)) bes) w' (map Done os) ->
  In (Ret (Ok tt)) os /\
  (forall o, In o os -> o = Ret (Ok tt) \/ o = Ret (Er (EIo KAlreadyExists (signature_name aname)))) /\
  forall b e, schema_ok (FileStorage 0 base) aschema ->
    exists sl, fresh_read b e base (signature_name aname) aschema w' = Ret (Ok sl) /\ sl_bytes sl = [].
Proof. apply creators_end. Qed.
Print Assumptions C78_create.

(** ** C79: whatever the processes write, each ends as above; a file that no call
    wrote is as before; in every other file, every byte is what one of the
    processes would have left there alone, or 0 (behind what the process that
    created the file last wrote). *)
Theorem C79_bytes_partial pss w w' os : processes_ok w pss -> pool_run w (map jobs_p pss) w' (map Done os) ->
  exists ds, Forall2 (fun js x => ended w' js (fst x) (snd x)) pss (combine ds os) /\
  List.length ds = List.length pss /\ List.length os = List.length pss /\
  forall k,
    ((forall d, In d ds -> final d k = None) /\ w_files w' k = w_files w k) \/
    exists x cx c, In x ds /\ final x k = Some cx /\ w_files w' k = Some c /\ (List.length cx <= List.length c)%nat /\
      forall i, (i < List.length c)%nat -> exists y cy, In y ds /\ final y k = Some cy /\ (i < List.length cy)%nat /\
        (nth i c 0 = nth i cy 0 \/ nth i c 0 = 0 /\ (List.length cx <= i)%nat).
Proof. apply processes_end. Qed.
Print Assumptions C79_bytes_partial.

(** ** But a resource need not be what one of them wrote: two processes write a
    resource, both succeed, and a reader gets data that neither of them wrote. *)
Ltac conc_name := split; [reflexivity|split; discriminate].
Ltac conc_solve := split;
  [intros j Hj; simpl in Hj; repeat destruct Hj as [<-|Hj]; try destruct Hj;
     (split;
       [split; [first [exact I|assumption]|intros p Hp; simpl in Hp; repeat destruct Hp as [<-|Hp]; try destruct Hp; vm_compute; discriminate]
       |intros p Hp; simpl in Hp; repeat destruct Hp as [<-|Hp]; try destruct Hp;
        (split; [conc_name|split; (split; [reflexivity|left; split; [conc_name|apply ex_base_ready]])])])
  |intros j j' k c Hj Hj' Hk; simpl in Hj, Hj'; repeat destruct Hj as [<-|Hj]; try destruct Hj;
     repeat destruct Hj' as [<-|Hj']; try destruct Hj';
     simpl in Hk; repeat destruct Hk as [[= <- _]|Hk]; try destruct Hk; vm_compute; auto].
Definition seen_data (o : outcome (result slice rs_error)) : result (list Z) unit :=
  match o with Ret (Ok sl) => Ok (sl_bytes sl) | _ => Er tt end.
Definition mix_procs b e : list (list job) :=
  [[JWrite b e "/d" "x" ex_schema [1; 2; 3]]; [JWrite b e "/d" "x" ex_schema [4; 5]]].
Definition mix_order : list nat := [1; 1; 1; 0; 0; 1; 1; 0; 0; 0; 0; 0; 0]%nat ++ repeat 1%nat 8 ++ repeat 0%nat 4.
Theorem C79_mixed_refuted b e : exists w w' d1 d2 d3,
  let pss := [[JWrite b e "/d" "x" ex_schema d1]; [JWrite b e "/d" "x" ex_schema d2]] in
  processes_ok w pss /\ pool_run w (map jobs_p pss) w' (map Done [Ret (Ok tt); Ret (Ok tt)]) /\
  (forall b' e', seen_data (fresh_read b' e' "/d" "x" ex_schema w') = Ok d3) /\ d3 <> d1 /\ d3 <> d2.
Proof.
  set (r := schedule mix_order ex_w (map jobs_p (mix_procs b e))).
  exists ex_w, (fst r), [1; 2; 3], [4; 5], [4; 5; 0]. cbv zeta.
  split; [conc_solve|split; [|split; [|split; discriminate]]].
  - replace (map Done [Ret (Ok tt); Ret (Ok tt)]) with (snd r); [apply schedule_run|].
    destruct b, e; vm_compute; reflexivity.
  - intros b' e'. destruct b, e, b', e'; vm_compute; reflexivity.
Qed.
Print Assumptions C79_mixed_refuted.

(** ** And create_archive does not exclude others: two creators with different
    schemas both succeed, and neither of them can read the archive afterwards
    (the file with the schema holds a byte of one and a byte of the other). *)
Definition two_order : list nat := [0; 1]%nat ++ repeat 0%nat 9 ++ repeat 1%nat 8 ++ repeat 0%nat 2 ++ repeat 1%nat 2.
Theorem C79_exclusive_refuted b e : exists w w' s1 s2,
  let pss := [[JCreate b e "/d" "A" s1]; [JCreate b e "/d" "A" s2]] in
  processes_ok w pss /\ schema_ok (FileStorage 0 "/d") s1 /\ schema_ok (FileStorage 0 "/d") s2 /\
  pool_run w (map jobs_p pss) w' (map Done [Ret (Ok tt); Ret (Ok tt)]) /\
  forall b' e', fresh_read b' e' "/d" "A.archive" s1 w' = Ret (Er (EWrongSignature "A.archive")) /\
    fresh_read b' e' "/d" "A.archive" s2 w' = Ret (Er (EWrongSignature "A.archive")).
Proof.
  set (r := schedule two_order ex_w (map jobs_p [[JCreate b e "/d" "A" [97; 97]]; [JCreate b e "/d" "A" [98]]])).
  assert (S : forall l, Forall is_byte l -> utf8_ok l = true -> len l <= isize_max -> l <> [] -> schema_ok (FileStorage 0 "/d") l)
    by (intros l H1 H2 H3 H4; repeat (split; auto)).
  exists ex_w, (fst r), [97; 97], [98]. cbv zeta.
  split; [conc_solve|]. split; [apply S; try reflexivity; try discriminate; repeat constructor; vm_compute; congruence|].
  split; [apply S; try reflexivity; try discriminate; repeat constructor; vm_compute; congruence|]. split.
  - replace (map Done [Ret (Ok tt); Ret (Ok tt)]) with (snd r); [apply schedule_run|].
    destruct b, e; vm_compute; reflexivity.
  - intros b' e'. destruct b, e, b', e'; vm_compute; auto.
Qed.
Print Assumptions C79_exclusive_refuted.

(** ** Examples *)
(** Three processes that agree, one of another build and byte order: each creates
    the archive, writes "x", streams "y".  In the first order all three succeed;
    in the second the first is alone for a while and the others find the
    archive. *)
Definition ag_jobs b e : list job :=
  [JCreate b e "/d" "A" ex_schema; JWrite b e "/d" "x" ex_schema [1; 2; 3]; JStream b e "/d" "y" ex_schema [[4]; []; [5; 6]]].
Definition ag_procs : list (list job) := [ag_jobs Debug LE; ag_jobs Release BE; ag_jobs Debug LE].
Definition ag_run (s : list nat) := schedule s ex_w (map jobs_p ag_procs).
Definition robin : list nat := List.concat (repeat [0; 2; 1]%nat 60).
Definition first_alone : list nat := repeat 0%nat 5 ++ robin.
Definition ag_contents (k : key) : list Z :=
  if key_eqb k (key_of "/d/A.archive") then resource_bytes []
  else if key_eqb k (key_of "/d/x") then resource_bytes [1; 2; 3]
  else if key_eqb k (key_of "/d/y") then resource_bytes [4; 5; 6] else ex_schema.
Definition ag_seen (w : world) :=
  (seen_data (fresh_read Release LE "/d" "A.archive" ex_schema w), seen_data (fresh_read Debug BE "/d" "x" ex_schema w),
   seen_data (fresh_read Debug LE "/d" "y" ex_schema w)).
Example C78_example :
  processes_ok ex_w ag_procs /\
  (forall j k c, In j (List.concat ag_procs) -> In (k, c) (job_files j) -> c = ag_contents k) /\
  snd (ag_run robin) = map Done [Ret (Ok tt); Ret (Ok tt); Ret (Ok tt)] /\
  ag_seen (fst (ag_run robin)) = (Ok [], Ok [1; 2; 3], Ok [4; 5; 6]) /\
  snd (ag_run first_alone) = map Done [Ret (Ok tt); Ret (Er (EIo KAlreadyExists "A.archive")); Ret (Er (EIo KAlreadyExists "A.archive"))] /\
  ag_seen (fst (ag_run first_alone)) = (Ok [], Ok [1; 2; 3], Ok [4; 5; 6]) /\
  (forall s, pool_run ex_w (map jobs_p ag_procs) (fst (ag_run s)) (snd (ag_run s))).
Proof.
  split; [conc_solve|]. split.
  { intros j k c Hj Hk. simpl in Hj. repeat destruct Hj as [<-|Hj]; try destruct Hj;
      simpl in Hk; destruct Hk as [[= <- <-]|[[= <- <-]|[]]]; vm_compute; reflexivity. }
  split; [vm_compute; reflexivity|]. split; [vm_compute; reflexivity|]. split; [vm_compute; reflexivity|].
  split; [vm_compute; reflexivity|]. intros s. apply schedule_run.
Qed.
(** One process has created the archive before the others look. *)
Example C78_create_example :
  valid_name (signature_name "A") /\ unblocked (FileStorage 0 "/d") (signature_name "A") ex_w /\
  w_files ex_w (res_key (FileStorage 0 "/d") (signature_name "A")) = None /\
  snd (schedule (repeat 1%nat 20 ++ repeat 0%nat 5) ex_w (map (fun be => jobs_p [JCreate (fst be) (snd be) "/d" "A" ex_schema]) [(Debug, LE); (Release, BE)])) =
  map Done [Ret (Er (EIo KAlreadyExists "A.archive")); Ret (Ok tt)].
Proof.
  split; [conc_name|]. split; [split; (split; [reflexivity|left; split; [conc_name|apply ex_base_ready]])|].
  split; [reflexivity|]. vm_compute. reflexivity.
Qed.
(** The mixed contents of above: their bytes are 4, 5 of the second process and
    the first byte of the second's padding. *)
Example C79_example : forall b e,
  processes_ok ex_w (mix_procs b e) /\
  w_files (fst (schedule mix_order ex_w (map jobs_p (mix_procs b e)))) (key_of "/d/x") =
    Some (le_bytes 8 3 ++ [4; 5; 0] ++ zeros 8) /\
  final [JWrite b e "/d" "x" ex_schema [4; 5]] (key_of "/d/x") = Some (le_bytes 8 2 ++ [4; 5] ++ zeros 8) /\
  final [JWrite b e "/d" "x" ex_schema [1; 2; 3]] (key_of "/d/x") = Some (le_bytes 8 3 ++ [1; 2; 3] ++ zeros 8).
Proof. intros b e. split; [conc_solve|]. destruct b, e; vm_compute; auto. Qed.
