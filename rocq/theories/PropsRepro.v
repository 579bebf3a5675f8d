(** Property C63: what a builder leaves depends on the data only.
    Vocabulary (ReproSpec.v): [same_plan] (the same data was set, whatever the
    order of the calls), [same_tree] (two directories hold the same files);
    [history], [finished], [empty_place] as in PropsBuilder.v, PropsProgress.v. *)
From Verif Require Import Base BaseFacts Codec CodecSpec CodecFacts Structs StructsSpec StructsFacts Views ViewsSpec ViewsFacts.
From Verif Require Import Storage PathFacts StorageSpec StorageFacts StorageMore StorageUse PropsStorage Writers WritersSpec HandleFacts EncodeFacts.
From Verif Require Import ElsewhereFacts ExtVecFacts ExtVecUse MultiViews MultiSpec MultiViewFacts MultiViewUse MultiVecFacts MultiVecUse.
From Verif Require Import Archives ArchiveSpec ArchiveFacts PropsArchive BuilderSpec BuilderFacts BuilderUse PropsBuilder.
From Verif Require Import DirFacts BuilderProgress PropsProgress ReproSpec ReproFacts.
Local Open Scope list_scope.
Local Open Scope Z_scope.

(** Two directories, two users, two machines: the same data gives the same
    files with the same bytes, and no others. *)
Theorem C63_same_files b e lim b' e' lim' a id base w ops A id' base' w' ops' A' w1 w1' r r' w2 w2' :
  wf_archive true a -> dirs_apart a ->
  maps_ok w -> unused_storage (FileStorage id base) w -> empty_place (FileStorage id base) w -> history true a no_plan ops A ->
  maps_ok w' -> unused_storage (FileStorage id' base') w' -> empty_place (FileStorage id' base') w' -> history true a no_plan ops' A' ->
  same_plan a A A' ->
  builder_new b e a (FileStorage id base) w = (Ret (Ok (FileStorage id base)), w1) ->
  brun b e lim a ops (new_bstate (FileStorage id base)) w1 = (Ret r, w2) ->
  builder_new b' e' a (FileStorage id' base') w' = (Ret (Ok (FileStorage id' base')), w1') ->
  brun b' e' lim' a ops' (new_bstate (FileStorage id' base')) w1' = (Ret r', w2') ->
  same_tree base w2 base' w2'.
Proof.
  intros Wf Da M U E H M' U' E' H' Sp N R N' R'.
  destruct (build_progress b e lim a (FileStorage id base) w ops A Wf Da M U E H) as (x1 & s & x2 & X1 & X2 & Rm).
  destruct (build_progress b' e' lim' a (FileStorage id' base') w' ops' A' Wf Da M' U' E' H') as (y1 & s' & y2 & Y1 & Y2 & Rm').
  rewrite N in X1. injection X1 as <-. rewrite R in X2. injection X2 as -> <-.
  rewrite N' in Y1. injection Y1 as <-. rewrite R' in Y2. injection Y2 as -> <-.
  eapply sim_tree; [exact Wf|exact Sp| | |exact (Rm eq_refl)|exact (Rm' eq_refl)].
  - exact (build_sim b e lim a (FileStorage id base) w w1 ops A _ _ w2 Wf M U N H R (flags_true _)).
  - exact (build_sim b' e' lim' a (FileStorage id' base') w' w1' ops' A' _ _ w2' Wf M' U' N' H' R' (flags_true _)).
Qed.
Print Assumptions C63_same_files.

(** In any storages (also one in memory and one on disk) and with any faults: if
    all calls succeed, every resource has the same bytes. *)
Theorem C63_same_bytes b e lim b' e' lim' a st w ops A st' w' ops' A' w1 w1' flags flags' s s' w2 w2' n :
  wf_archive (is_file st) a -> wf_archive (is_file st') a ->
  maps_ok w -> unused_storage st w -> history (is_file st) a no_plan ops A ->
  maps_ok w' -> unused_storage st' w' -> history (is_file st') a no_plan ops' A' ->
  same_plan a A A' ->
  builder_new b e a st w = (Ret (Ok st), w1) ->
  brun b e lim a ops (new_bstate st) w1 = (Ret (flags, s), w2) -> Forall (eq true) flags ->
  builder_new b' e' a st' w' = (Ret (Ok st'), w1') ->
  brun b' e' lim' a ops' (new_bstate st') w1' = (Ret (flags', s'), w2') -> Forall (eq true) flags' ->
  In n (part_names a) ->
  bytes_at (cell_at st n) w2 = bytes_at (cell_at st' n) w2' /\
  bytes_at (cell_at st (schema_name n)) w2 = bytes_at (cell_at st' (schema_name n)) w2'.
Proof.
  intros Wf Wf' M U H M' U' H' Sp N R T N' R' T' In_.
  assert (S := build_sim b e lim a st w w1 ops A _ _ w2 Wf M U N H R T).
  assert (S' := build_sim b' e' lim' a st' w' w1' ops' A' _ _ w2' Wf' M' U' N' H' R' T').
  exact (sim_alike a st st' A A' s s' w2 w2' n Wf Sp S S' In_).
Qed.
Print Assumptions C63_same_bytes.

(** The example of PropsBuilder.v, and the same data in another order, with the
    setters called in another order and a vector set from bytes, in another
    directory, which exists already. *)
Definition ex_ops2 : list bop :=
  [BVector 0 (whole [1; 0; 2; 0; 3; 0; 4; 0]); BRaw 0 [9]; BStruct 0 [1; 2; 3; 4; 77]; BMulStart 0;
   BMulGrow 0 [(1%nat, [(1%nat, 7); (0%nat, 5); (1%nat, 6)])]; BMulGrow 0 []; BMulClose 0; BSubNew 0; BSub 0 (BRaw 0 [8; 8])].
Definition ex_plan2 : plan :=
  pl_sub 0 (Some (pl_raw 0 (Some [8; 8]) no_plan)) (pl_sub 0 (Some no_plan)
 (pl_mul 0 (MClosed [[(1%nat, [(1%nat, 7); (0%nat, 5); (1%nat, 6)])]; []]) (pl_mul 0 (MOpen [[(1%nat, [(1%nat, 7); (0%nat, 5); (1%nat, 6)])]; []])
 (pl_mul 0 (MOpen [[(1%nat, [(1%nat, 7); (0%nat, 5); (1%nat, 6)])]]) (pl_mul 0 (MOpen [])
 (pl_struct 0 (Some [1; 2; 3; 4]) (pl_raw 0 (Some [9]) (pl_vec 0 (VSet [1; 0; 2; 0; 3; 0; 4; 0]) no_plan)))))))).
Lemma ex_history2 : history true ex_Arch no_plan ex_ops2 ex_plan2.
Proof.
  unfold ex_ops2.
  eapply history_cons; [eapply may_vector; [reflexivity|reflexivity| |range_solve]|].
  { split; [vm_compute; split; discriminate|]. split; [vm_compute; discriminate|bytes_solve]. }
  eapply history_cons; [eapply may_raw; [reflexivity|reflexivity|split; [bytes_solve|range_solve]]|].
  eapply history_cons; [eapply may_struct; [reflexivity|reflexivity|bytes_solve|range_solve|range_solve]|].
  eapply history_cons; [eapply may_mul_start; reflexivity|].
  eapply history_cons; [eapply may_mul_grow; [reflexivity|reflexivity|items_solve|reflexivity|range_solve|range_solve]|].
  eapply history_cons; [eapply may_mul_grow; [reflexivity|reflexivity|items_solve|reflexivity|range_solve|range_solve]|].
  eapply history_cons; [eapply may_mul_close; reflexivity|].
  eapply history_cons; [eapply may_sub_new; reflexivity|].
  eapply history_cons; [eapply may_sub; [reflexivity|reflexivity|eapply may_raw; [reflexivity|reflexivity|split; [bytes_solve|range_solve]]]|].
  apply history_nil.
Qed.
Lemma ex_same_plan : same_plan ex_Arch ex_plan ex_plan2.
Proof.
  constructor.
  - intros [|[|[|k]]] r; cbn; intros [= <-]; reflexivity.
  - intros [|[|[|k]]] r; cbn; intros [= <-]; cbn; [|exact I].
    exists [[1; 0; 2; 0]; [3; 0; 4; 0]]. split; [reflexivity|]. 
    constructor; [apply (encodes_run ex_A [(0%nat, 1); (1%nat, 2)])|constructor; [apply (encodes_run ex_A [(1%nat, 4); (0%nat, 3)])|constructor]];
      try (apply wf_struct_dec; reflexivity); try sets_solve; vm_compute; reflexivity.
  - intros [|[|[|k]]] r; cbn; intros [= <-]; cbn; [reflexivity|exact I].
  - intros [|[|[|k]]] r; cbn; intros [= <-]; reflexivity.
  - intros [|[|[|k]]] r; cbn; intros [= <-]; split; intros H; auto; discriminate.
  - intros [|[|[|k]]] r B B'; cbn; intros [= <-] [= <-] [= <-]. constructor; cbn.
    + intros [|k] r; discriminate.
    + intros [|k] r; discriminate.
    + intros [|k] r; discriminate.
    + intros [|[|k]] r; cbn; intros [= <-]; reflexivity.
    + intros [|k] r; discriminate.
    + intros [|k] r B B'; discriminate.
Qed.

Definition ex_fs2 := FileStorage 1 "/e/f".
Definition ex_w2 := set_dirs (kupd (key_of "/e/f") true (kupd (key_of "/e") true (w_dirs ex_w))) ex_w.
Lemma ex_empty2 : empty_place ex_fs2 ex_w2.
Proof.
  split; [reflexivity|]. split; [reflexivity|].
  intros k (x & q & ->). split; [reflexivity|]. reflexivity.
Qed.
Example C63_example :
  unused_storage ex_fs2 ex_w2 /\ empty_place ex_fs2 ex_w2 /\
  history true ex_Arch no_plan ex_ops ex_plan /\ history true ex_Arch no_plan ex_ops2 ex_plan2 /\ same_plan ex_Arch ex_plan ex_plan2 /\
  omap fst (fst (ex_build Debug LE ex_fs ex_ops ex_w)) = Ret (repeat true 12) /\
  omap fst (fst (ex_build Release BE ex_fs2 ex_ops2 ex_w2)) = Ret (repeat true 9) /\
  let f := w_files (snd (ex_build Debug LE ex_fs ex_ops ex_w)) in
  let f' := w_files (snd (ex_build Release BE ex_fs2 ex_ops2 ex_w2)) in
  f (inside "/d" ["mv"%string]) = Some ([5; 0; 0; 0; 0; 0; 0; 0; 1; 5; 0; 6; 0] ++ zeros 8) /\
  f' (inside "/e/f" ["mv"%string]) = f (inside "/d" ["mv"%string]) /\
  f' (inside "/e/f" ["v"%string]) = f (inside "/d" ["v"%string]) /\
  f' (inside "/e/f" ["arch"%string; "raw"%string]) = f (inside "/d" ["arch"%string; "raw"%string]).
Proof.
  split; [split; [simpl; lia|simpl; auto]|]. split; [apply ex_empty2|]. split; [apply ex_history|]. split; [apply ex_history2|].
  split; [apply ex_same_plan|]. repeat split; vm_compute; reflexivity.
Qed.

(** Other data gives other files. *)
Example C63_differs : forall b e,
  w_files (snd (ex_build b e ex_fs [BRaw 0 [9]] ex_w)) (inside "/d" ["r"%string]) <>
  w_files (snd (ex_build b e ex_fs [BRaw 0 [8]] ex_w)) (inside "/d" ["r"%string]).
Proof. intros b e. destruct b, e; vm_compute; discriminate. Qed.
