(** Properties C54 and C56, what holds of them: writing a resource that was
    read before, and creating an archive that is already there. *)
From Verif Require Import Base BaseFacts Codec CodecSpec Structs StructsSpec StructsFacts Views ViewsSpec.
From Verif Require Import Storage PathFacts StorageSpec StorageFacts StorageMore StorageUse RewriteFacts PropsStorage.
Local Open Scope list_scope.
Local Open Scope Z_scope.

(** C54: the exact result of reading again.  The new data is found if it has
    the length of the old one (and likewise the schema); if it is longer the
    read fails, if it is shorter the read touches memory that is not there. *)
Theorem C54_rewrite_partial b1 e1 b2 e2 b3 e3 id base name s1 s2 d2 w1 sl w2 w3 expected :
  let st := FileStorage id base in
  maps_ok w1 -> disk_ok w1 -> data_ok d2 ->
  read b1 e1 st name s1 w1 = (Ret (Ok sl), w2) ->
  write b2 e2 st name s2 d2 w2 = (Ret (Ok tt), w3) -> w_faults w3 = [] ->
  omap seen (fst (read b3 e3 st name expected w3)) =
    if (len d2 <? sl_len sl) || (len s2 <? len s1) then UB
    else if sl_len sl <? len d2 then Ret (Er EUnexpectedDataSize)
    else let schema := firstn (length s1) s2 in
      if negb (utf8_ok schema) then Ret (Er EUtf8)
      else if bytes_eqb schema expected then Ret (Ok d2) else Ret (Er (EWrongSignature name)).
Proof. exact (rewrite_exact b1 e1 b2 e2 b3 e3 id base name s1 s2 d2 w1 sl w2 w3 expected). Qed.
Print Assumptions C54_rewrite_partial.

Definition ex_rewrite (s2 d2 expected : list Z) :=
  let w1 := snd (write Debug LE ex_fs "x" [65; 66] [1; 2] ex_w) in
  let (o2, w2) := read Debug LE ex_fs "x" [65; 66] w1 in
  let (o3, w3) := write Debug LE ex_fs "x" s2 d2 w2 in
  (omap seen o2, o3, w_faults w3, omap seen (fst (read Release BE ex_fs "x" expected w3))).
Example C54_rewrite_example :
  ex_rewrite [67; 68] [3; 4] [67; 68] = (Ret (Ok [1; 2]), Ret (Ok tt), [], Ret (Ok [3; 4])) /\
  ex_rewrite [67; 68] [3; 4; 5] [67; 68] = (Ret (Ok [1; 2]), Ret (Ok tt), [], Ret (Er EUnexpectedDataSize)) /\
  ex_rewrite [67; 68; 69] [3; 4] [67; 68; 69] = (Ret (Ok [1; 2]), Ret (Ok tt), [], Ret (Er (EWrongSignature "x"))) /\
  ex_rewrite [67; 68; 69] [3; 4] [67; 68] = (Ret (Ok [1; 2]), Ret (Ok tt), [], Ret (Ok [3; 4])) /\
  ex_rewrite [67] [3; 4] [67] = (Ret (Ok [1; 2]), Ret (Ok tt), [], UB) /\
  ex_rewrite [67; 68] [3] [67; 68] = (Ret (Ok [1; 2]), Ret (Ok tt), [], UB).
Proof. repeat split; vm_compute; reflexivity. Qed.

(** C56: if the signature is there, create_archive changes it only if its
    first system call fails.  In memory it never does. *)
Theorem C56_kept_partial b e st aname aschema w o w' :
  present st (signature_name aname) w = true ->
  create_archive b e st aname aschema w = (o, w') ->
  (o = Ret (Er (EIo KAlreadyExists (signature_name aname))) /\ w' = set_faults (w_faults w') w) \/
  (is_file st = true /\
   ((o = Crash /\ w' = set_faults (w_faults w') w) \/
    exists k r, w_faults w = FErr k :: r \/ exists n, w_faults w = FShort n k :: r)).
Proof.
  intros P. unfold create_archive, mbind. destruct st as [id base|id base].
  - cbn [present] in P. cbn [exists_].
    set (x := (_ || _)%bool). assert (X : x = true).
    { unfold x. destruct (w_resources _ _ _), (w_streams _ _ _); auto. }
    rewrite X. intros [= <- <-]. left. split; auto. destruct w; reflexivity.
  - cbn [exists_ present] in *. unfold path_exists, mbind, syscall, next_fault.
    destruct (w_faults w) as [|[|k|n k|n] r] eqn:F.
    + rewrite P. intros [= <- <-]. left. split; auto. destruct w; reflexivity.
    + unfold on_disk in *. cbn [w_files w_dirs set_faults] in *. rewrite P.
      intros [= <- <-]. left. split; auto.
    + intros _. right. split; auto. right. eauto.
    + intros _. right. split; auto. right. eauto.
    + intros [= <- <-]. right. split; auto.
Qed.
Print Assumptions C56_kept_partial.

Example C56_kept_example : forall st, st = ex_fs \/ st = ex_ms ->
  let w1 := snd (create_archive Debug LE st "G" [65] ex_w) in
  present st "G.archive" w1 = true /\
  fst (create_archive Debug LE st "G" [66] (set_faults [FOk; FErr KOther] w1)) = Ret (Er (EIo KAlreadyExists "G.archive")) /\
  fst (create_archive Debug LE ex_fs "G" [66] (set_faults [FCrash 3] w1)) = Crash.
Proof. intros st [-> | ->]; vm_compute; repeat split. Qed.
