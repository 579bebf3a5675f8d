(** Property C103: doing again what failed or was interrupted.
    Vocabulary (RedoSpec.v): [tried], [tried_create] (any number of attempts, by any
    processes, in which any system calls fail, and which may be killed anywhere, also
    between two directories), [free_place] (nothing in the way), [tree_ok]
    (directories are in directories), [resource_added] (which files and directories
    there should be). *)
From Verif Require Import Base BaseFacts Codec Storage PathFacts StorageSpec StorageFacts StorageMore StorageUse PropsStorage.
From Verif Require Import DirFacts RedoSpec RedoFacts.
Local Open Scope list_scope.
Local Open Scope Z_scope.

(** If nothing was in the way at first, a write without failing calls works after
    any attempts.  Afterwards there are the files and directories that it would
    have made at first. *)
Theorem C103_write b e id base name schema data w w1 : valid_name name -> tree_ok w -> free_place base name w ->
  tried base name w w1 -> w_faults w1 = [] ->
  exists w2, write b e (FileStorage id base) name schema data w1 = (Ret (Ok tt), w2) /\
    resource_added base name schema data w w2.
Proof. intros V T P Tr Hf. apply redo_added; auto. apply tried_keeps. exact Tr. Qed.
Print Assumptions C103_write.

(** If something was in the way, no attempt ever works. *)
Theorem C103_blocked b e id base name schema data fs w w1 o w2 : valid_name name -> ~ free_place base name w ->
  tried base name w w1 ->
  write b e (FileStorage id base) name schema data (set_faults fs w1) = (o, w2) -> o <> Ret (Ok tt).
Proof. intros V N T. exact (redo_blocked b e id base name schema data fs w w1 o w2 V T N). Qed.
Print Assumptions C103_blocked.

(** Archives can be created after attempts that failed or were interrupted exactly
    if no attempt got as far as making the signature file ... *)
Theorem C103_archive_partial b e id base aname schema w w1 : valid_name aname -> tree_ok w ->
  free_place base (signature_name aname) w -> tried_create base aname w w1 -> w_faults w1 = [] ->
  match w_files w1 (file_of base (signature_name aname)) with
  | None => exists w2, create_archive b e (FileStorage id base) aname schema w1 = (Ret (Ok tt), w2) /\
      resource_added base (signature_name aname) schema [] w w2
  | Some _ => create_archive b e (FileStorage id base) aname schema w1 = (Ret (Er (EIo KAlreadyExists (signature_name aname))), w1)
  end.
Proof. exact (redo_create b e id base aname schema w w1). Qed.
Print Assumptions C103_archive_partial.

(** ... and there are attempts, interrupted or failing, that return no success and
    after which the archive can never be created. *)
Theorem C103_archive_refuted f : f = FCrash 3 \/ f = FErr KOther ->
  let (o, w1) := create_archive Debug LE (FileStorage 1 "/d/e") "G" ex_schema (set_faults (repeat FOk 4 ++ [f]) ex_w) in
  o <> Ret (Ok tt) /\ valid_name "G" /\ tree_ok ex_w /\ free_place "/d/e" "G.archive" ex_w /\
  forall b e id schema, create_archive b e (FileStorage id "/d/e") "G" schema (restart w1) =
    (Ret (Er (EIo KAlreadyExists "G.archive")), restart w1).
Proof.
  assert (T : tree_ok ex_w).
  { intros [a k] [a' x] H P. unfold is_dir in *. cbn in *. apply Nat.eqb_eq in H. destruct k; [|discriminate].
    unfold is_prefix_of in P. cbn [fst snd] in P. apply andb_prop in P as [_ P]. rewrite firstn_nil in P. destruct x; [reflexivity|discriminate P]. }
  assert (V : valid_name "G") by (repeat split; discriminate).
  assert (P : free_place "/d/e" "G.archive" ex_w) by (repeat split; right; reflexivity).
  intros [-> | ->].
  all: destruct (create_archive Debug LE (FileStorage 1 "/d/e") "G" ex_schema _) as [o w1] eqn:E.
  all: split; [intros ->; vm_compute in E; discriminate|]; split; [exact V|]; split; [exact T|]; split; [exact P|].
  all: intros b e id schema; assert (X := C103_archive_partial b e id "/d/e" "G" schema ex_w (restart w1) V T P).
  all: assert (Tr : tried_create "/d/e" "G" ex_w (restart w1)) by (eapply created_again; [apply created_not; split; reflexivity|exact E|split; reflexivity]).
  all: specialize (X Tr eq_refl).
  all: assert (Y : w_files (restart w1) (file_of "/d/e" (signature_name "G")) <> None) by (apply (f_equal snd) in E; cbn [snd] in E; rewrite <- E; vm_compute; discriminate).
  all: destruct (w_files (restart w1) (file_of "/d/e" (signature_name "G"))); [exact X|destruct Y; reflexivity].
Qed.
Print Assumptions C103_archive_refuted.

(** A process is killed after it has made "/d" of "/d/e/f", one in the data (the
    stat of the directory failed, too), one fails in the schema. *)
Definition ex_kill (fs : list fault) (d : list Z) (w : world) : world :=
  restart (snd (write Debug LE (FileStorage 1 "/d/e/f") "x" [65; 66] d (set_faults fs w))).
Definition ex_tried1 : world := ex_kill [FOk; FCrash 1] [1] ex_w.
Definition ex_tried3 : world :=
  ex_kill (repeat FOk 7 ++ [FShort 1 KOther]) [3; 3] (ex_kill ([FErr KOther] ++ repeat FOk 4 ++ [FCrash 2]) [2; 2; 2] ex_tried1).
Lemma ex_kill_tried fs d w w1 : tried "/d/e/f" "x" w w1 -> tried "/d/e/f" "x" w (ex_kill fs d w1).
Proof.
  intros T. unfold ex_kill. destruct (write Debug LE (FileStorage 1 "/d/e/f") "x" [65; 66] d (set_faults fs w1)) as [o w2] eqn:E.
  eapply tried_again; [exact T|exact E|split; reflexivity].
Qed.
Example C103_example :
  tried "/d/e/f" "x" ex_w ex_tried3 /\ free_place "/d/e/f" "x" ex_w /\ ~ free_place "/d/e/f" "x" (set_files (fun k => if comps_eqb (snd k) ["d"; "e"]%string then Some [] else None) ex_w) /\
  (is_dir (key_of "/d") ex_tried1, is_dir (key_of "/d/e") ex_tried1) = (true, false) /\
  w_files ex_tried3 (file_of "/d/e/f" "x") = Some (resource_bytes [3; 3]) /\
  w_files ex_tried3 (file_of "/d/e/f" "x.schema") = Some [65] /\
  let (o, w2) := write Release BE (FileStorage 5 "/d/e/f") "x" [67] [4] ex_tried3 in
  o = Ret (Ok tt) /\ w_files w2 (file_of "/d/e/f" "x") = Some (resource_bytes [4]) /\
  w_files w2 (file_of "/d/e/f" "x.schema") = Some [67].
Proof.
  split; [apply ex_kill_tried, ex_kill_tried, ex_kill_tried, tried_not; split; reflexivity|].
  split; [repeat split; right; reflexivity|]. split.
  { intros (_ & _ & [H|H]); [discriminate H|]. specialize (H 2%nat). vm_compute in H. discriminate H. }
  vm_compute. repeat split.
Qed.
