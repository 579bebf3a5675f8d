(** Property C100: calls that read resources and open archives return in whatever
    state the files, the storage and the process are, and report failures as errors;
    debug builds do not if a size header overflows.  Vocabulary: StartSpec.v
    ([may_die]), OpenSpec.v ([overflows], [cut_off], [somewhere], [trips]). *)
From Verif Require Import Base Codec Structs StructsSpec Views Storage PathFacts StorageSpec StorageUse PropsStorage Writers WritersSpec StartSpec.
From Verif Require Import MultiViews MultiSpec Archives ArchiveSpec ArchiveFacts PropsArchive OpenSpec OpenFacts.
Local Open Scope list_scope.
Local Open Scope Z_scope.

(** Any storage and world, with any failures: if read does not return, the process
    was killed, or a file was cut that is mapped, or a header overflowed in a debug
    build. *)
Theorem C100_read_partial b e st n s w : maps_ok w -> (forall c, finds st w n (Some c) -> stored_ok c) ->
  match fst (read b e st n s w) with
  | Ret _ => True
  | Panic => b = Debug /\ overflows (PStorage st w) n
  | UB => cut_off st n w \/ cut_off st (schema_name n) w
  | Crash => may_die w
  end.
Proof. exact (read_result b e st n s w). Qed.
Print Assumptions C100_read_partial.

(** The same for archives of any shape. *)
Theorem C100_open_partial b e a st w : let p := PStorage st w in
  maps_ok w -> (st_id st < w_next w)%nat -> everywhere readable a p ->
  match fst (open_archive b e a st w) with
  | Ret _ => True
  | Panic => b = Debug /\ somewhere overflows a p
  | UB => False
  | Crash => may_die w
  end.
Proof. exact (open_result b e a st w). Qed.
Print Assumptions C100_open_partial.

(** A new process can open whatever is in a directory, or gets an error; in a debug
    build it can be a panic. *)
Theorem C100_fresh_open_partial b e a base w : disk_ok w ->
  (exists r, fresh_open b e a base w = Ret r) \/
  (fresh_open b e a base w = Panic /\ b = Debug /\ somewhere overflows a (PDisk base w)).
Proof. exact (fresh_result b e a base w). Qed.
Print Assumptions C100_fresh_open_partial.

(** In a debug build every archive that can be opened becomes one that panics: by
    such a header in any of its optional resources, at any depth, ... *)
Theorem C100_open_refuted e a st w : let p := PStorage st w in
  maps_ok w -> (st_id st < w_next w)%nat -> everywhere readable a p -> w_faults w = [] ->
  checks a p -> trips a p -> fst (open_archive Debug e a st w) = Panic.
Proof. exact (open_trips e a st w). Qed.
Print Assumptions C100_open_refuted.

(** ... although a release build opens it. *)
Theorem C100_fresh_open_refuted e a base w : disk_ok w -> checks a (PDisk base w) -> trips a (PDisk base w) ->
  fresh_open Debug e a base w = Panic /\ exists x, fresh_open Release e a base w = Ret (Ok x).
Proof.
  intros D Ck Tr. split; [exact (fresh_trips e a base w D Ck Tr)|].
  destruct (fresh_open_exact Release e a base w D (or_introl eq_refl)) as (r & E & Ok & _).
  destruct (proj2 Ok Ck) as (x & ->). eauto.
Qed.
Print Assumptions C100_fresh_open_refuted.

(** ** Examples *)
(** An archive with an optional sub-archive whose optional resource has a size of
    2^64 - 1. *)
Definition ox_nest := mkArchive "Two" [67] [] [] [] [] [("s"%string, ex_one, true)].
Definition ox_w : world := put_res "/d" "Two.archive" [67] []
  (put_res "/d/s" "One.archive" [65] [] (put "/d/s/r" (le_bytes 8 (2 ^ 64 - 1) ++ zeros 8) (put "/d/s/r.schema" [66] ex_w))).
Definition ox_open b l := omap (fun r => match r with Ok _ => None | Er x => Some x end)
  (fst (open_archive b LE ox_nest ex_fs (set_faults l ox_w))).
Example C100_example :
  disk_ok ox_w /\ checks ox_nest (PDisk "/d" ox_w) /\ trips ox_nest (PDisk "/d" ox_w) /\
  ox_open Debug [] = Panic /\ ox_open Release [] = Ret None /\
  ox_open Debug [FErr KOther] = Ret (Some (EIo KNotFound "Two.archive")) /\
  ox_open Debug (repeat FOk 5 ++ [FErr KOther]) = Ret None /\ ox_open Debug (repeat FOk 5 ++ [FCrash 0]) = Crash.
Proof.
  split; [unfold ox_w, put_res; do 6 put_solve; intros k c; discriminate|].
  assert (S1 : sound (PDisk "/d" ox_w) "Two.archive" [67]) by (exists [], (resource_bytes []), (zeros 8); vm_compute; repeat split).
  assert (S2 : sound (PDisk "/d/s" ox_w) "One.archive" [65]) by (exists [], (resource_bytes []), (zeros 8); vm_compute; repeat split).
  assert (C2 : checks ex_one (PDisk "/d/s" ox_w)).
  { split; [exact S2|]. split; [intros r []|]. split; [intros r []|]. split; [intros r [<-|[]]; discriminate|exact I]. }
  split; [split; [exact S1|]; split; [intros r []|]; split; [intros r []|]; split; [intros r []|]; split; [discriminate|exact I]|].
  split.
  - right. left. split; [exact C2|]. left. exists "r"%string. split; [right; left; reflexivity|].
    exists (le_bytes 8 (2 ^ 64 - 1) ++ zeros 8), [66]. repeat split; vm_compute; congruence.
  - vm_compute. repeat split.
Qed.
