(** Property C105: writing vectors again after attempts that failed or were
    interrupted.
    Vocabulary (AgainSpec.v, RedoSpec.v): [tried_vector], [tried_multi] (any number of
    attempts, by any processes, with any types, schemas and values, in which any
    system calls fail, and which may be killed anywhere), [free_place] (nothing in
    the way), [tree_ok] (directories are in directories), [files_added] (which files
    and directories there should be), [new_object] (a storage object that has read
    nothing). *)
From Verif Require Import Base BaseFacts Codec CodecSpec Structs StructsSpec Views ViewsSpec Storage PathFacts StorageSpec StorageFacts PropsStorage.
From Verif Require Import Writers WritersSpec PropsExtVec MultiViews MultiSpec PropsMultiViews PropsMultiVec RedoSpec RedoFacts AgainSpec AgainFacts.
Local Open Scope list_scope.
Local Open Scope Z_scope.

(** If nothing was in the way at first, writing an external vector without failing
    calls works after any attempts.  Afterwards there are the files and directories
    that it would have made at first: nothing is left of the attempts, though they
    may have written more than this one. *)
Theorem C105_vector b e lim s id base name schema sets w w1 : valid_name name -> tree_ok w -> free_place base name w ->
  tried_vector base name w w1 -> w_faults w1 = [] -> new_object id w1 ->
  wf_struct s -> schema_ok (FileStorage id base) schema -> Forall (sets_ok s) sets ->
  Z.of_nat (List.length sets) * s_size s + 16 <= isize_max ->
  exists sl w2, ev_session b e lim s (FileStorage id base) name schema (map EGrow sets) w1 =
      (Ret (Ok (repeat true (List.length sets), Ok sl)), w2) /\
    slice_ok sl /\ records s (sl_bytes sl) = elements s sets /\ av_len s sl = Z.of_nat (List.length sets) /\
    files_added base [(name, resource_bytes (sl_bytes sl)); (schema_name name, schema)] w w2.
Proof. exact (redo_vector b e lim s id base name schema sets w w1). Qed.
Print Assumptions C105_vector.

(** The same for multivectors, which have two more files. *)
Theorem C105_multi b e lim size bits ts id base name schema items w w1 :
  let st := FileStorage id base in let ops := map MGrow items in
  valid_name name -> tree_ok w -> free_place base name w -> free_place base (index_name name) w ->
  tried_multi base name w w1 -> w_faults w1 = [] -> new_object id w1 ->
  wf_struct (index_struct size bits) -> wf_vdesc ts -> mv_schema_ok st schema -> Forall (items_ok ts) items -> mv_fits size bits ts ops ->
  exists v w2, mv_session b e lim size bits ts st name schema ops w1 = (Ret (Ok (repeat true (List.length items), Ok v)), w2) /\
    mav_shows ts size bits v (buckets ts items) /\ mav_len b size bits v = Ret (Z.of_nat (List.length items)) /\
    files_added base [(name, resource_bytes (sl_bytes (ma_data v))); (schema_name name, schema);
      (index_name name, resource_bytes (sl_bytes (ma_index v))); (schema_name (index_name name), index_schema schema)] w w2.
Proof. exact (redo_multi b e lim size bits ts id base name schema items w w1). Qed.
Print Assumptions C105_multi.

(** If something was in the way, no attempt ever gets as far as adding elements. *)
Theorem C105_vector_blocked b e lim s id base name schema ops fs w w1 o w2 : valid_name name -> ~ free_place base name w ->
  tried_vector base name w w1 ->
  ev_session b e lim s (FileStorage id base) name schema ops (set_faults fs w1) = (o, w2) -> forall a, o <> Ret (Ok a).
Proof. exact (again_vector_blocked b e lim s id base name schema ops fs w w1 o w2). Qed.
Print Assumptions C105_vector_blocked.
Theorem C105_multi_blocked b e lim size bits ts id base name schema ops fs w w1 o w2 : valid_name name ->
  ~ (free_place base name w /\ free_place base (index_name name) w) -> tried_multi base name w w1 ->
  mv_session b e lim size bits ts (FileStorage id base) name schema ops (set_faults fs w1) = (o, w2) -> forall a, o <> Ret (Ok a).
Proof. exact (again_multi_blocked b e lim size bits ts id base name schema ops fs w w1 o w2). Qed.
Print Assumptions C105_multi_blocked.

(** Before a vector of two elements is written, a process is killed that has made
    "/d" of "/d/e/f", one writes five elements of another type and is killed in
    close, and one fails in the schema. *)
Definition again_sets := [[(0%nat, 513); (1%nat, -3)]; [(2%nat, 1)]].
Definition again_kill (fs : list fault) (s : sdesc) (sets : list (list (nat * Z))) (w : world) : world :=
  restart (snd (ev_session Debug LE 2 s (FileStorage 1 "/d/e/f") "x" [65; 66] (map EGrow sets) (set_faults fs w))).
Definition again_killed1 : world := again_kill [FOk; FCrash 1] ex_struct again_sets ex_w.
Definition again_killed2 : world := again_kill (repeat FOk 12 ++ [FCrash 3]) (index_struct 1 8) (repeat [(0%nat, 7)] 5) again_killed1.
Definition again_killed3 : world := again_kill [FOk; FOk; FShort 1 KOther] ex_struct [] again_killed2.
Lemma again_kill_tried fs s sets w w1 : tried_vector "/d/e/f" "x" w w1 -> tried_vector "/d/e/f" "x" w (again_kill fs s sets w1).
Proof.
  intros T. unfold again_kill. destruct (ev_session Debug LE 2 s (FileStorage 1 "/d/e/f") "x" [65; 66] (map EGrow sets) (set_faults fs w1)) as [o w2] eqn:E.
  eapply vector_again; [exact T|exact E|split; reflexivity].
Qed.
Lemma again_tree : tree_ok ex_w.
Proof.
  intros [a k] [a' x] H P. unfold is_dir in *. cbn in *. apply Nat.eqb_eq in H. destruct k; [|discriminate].
  unfold is_prefix_of in P. cbn [fst snd] in P. apply andb_prop in P as [_ P]. rewrite firstn_nil in P. destruct x; [reflexivity|discriminate P].
Qed.
Lemma again_new id w : new_object id (restart w).
Proof. split; [intros x p l H; discriminate H|reflexivity]. Qed.
Lemma again_schema id base : schema_ok (FileStorage id base) [67].
Proof. split; [reflexivity|]. split; [repeat constructor; unfold is_byte; lia|]. split; [unfold isize_max; vm_compute; congruence|discriminate]. Qed.
Example C105_vector_example :
  valid_name "x" /\ tree_ok ex_w /\ free_place "/d/e/f" "x" ex_w /\ tried_vector "/d/e/f" "x" ex_w again_killed3 /\
  w_faults again_killed3 = [] /\ new_object 5 again_killed3 /\ wf_struct ex_struct /\ schema_ok (FileStorage 5 "/d/e/f") [67] /\
  Forall (sets_ok ex_struct) again_sets /\ Z.of_nat (List.length again_sets) * s_size ex_struct + 16 <= isize_max /\
  (is_dir (key_of "/d") again_killed1, is_dir (key_of "/d/e") again_killed1) = (true, false) /\
  w_files again_killed3 (file_of "/d/e/f" "x") = Some (zeros 8 ++ repeat 7 5 ++ zeros 3) /\
  w_files again_killed3 (file_of "/d/e/f" "x.schema") = Some [65] /\
  let (o, w2) := ev_session Release BE 100 ex_struct (FileStorage 5 "/d/e/f") "x" [67] (map EGrow again_sets) again_killed3 in
  o = Ret (Ok ([true; true], Ok (mkSlice ([1; 210; 1; 0; 0; 128] ++ zeros 8) 6))) /\
  elements ex_struct again_sets = [[513; -3; 0]; [0; 0; 1]] /\
  w_files w2 (file_of "/d/e/f" "x") = Some (resource_bytes [1; 210; 1; 0; 0; 128]) /\
  w_files w2 (file_of "/d/e/f" "x.schema") = Some [67].
Proof.
  split; [repeat split; discriminate|]. split; [apply again_tree|]. split; [repeat split; right; reflexivity|].
  split; [apply again_kill_tried, again_kill_tried, again_kill_tried, vector_not; split; reflexivity|].
  split; [reflexivity|]. split; [apply again_new|]. split; [apply ex_struct_wf|].
  split; [apply again_schema|].
  split; [repeat (constructor; [repeat (constructor; [split; cbn; lia|]); constructor|]); constructor|].
  split; [unfold isize_max; vm_compute; congruence|]. vm_compute. repeat split.
Qed.

(** A multivector: one process is killed and one fails when they make the index, and
    one is killed when it has written three bytes of the data.  If "/d" is a file, no
    attempt ever works; the same if the data is a directory (the attempt panics, as
    the writer of the index is dropped open). *)
Definition again_items := [[(0%nat, [(0%nat, 197121)])]; []; [(1%nat, [(0%nat, 10); (1%nat, -2)])]].
Definition again_mkill (fs : list fault) (items : list (list (nat * list (nat * Z)))) (w : world) : world :=
  restart (snd (mv_session Debug LE 6 4 32 ex_ts (FileStorage 1 "/d/e") "x" [66] (map MGrow items) (set_faults fs w))).
Definition again_mkilled : world := again_mkill (repeat FOk 4 ++ [FErr KOther]) again_items (again_mkill (repeat FOk 3 ++ [FCrash 3]) again_items ex_w).
Definition again_mkilled2 : world := again_mkill (repeat FOk 12 ++ [FCrash 3]) (again_items ++ again_items) again_mkilled.
Lemma again_mkill_tried fs items w w1 : tried_multi "/d/e" "x" w w1 -> tried_multi "/d/e" "x" w (again_mkill fs items w1).
Proof.
  intros T. unfold again_mkill. destruct (mv_session Debug LE 6 4 32 ex_ts (FileStorage 1 "/d/e") "x" [66] (map MGrow items) (set_faults fs w1)) as [o w2] eqn:E.
  eapply multi_again; [exact T|exact E|split; reflexivity].
Qed.
Definition again_files (w : world) := map (fun n => w_files w (file_of "/d/e" n)) ["x"; "x.schema"; "x_index"; "x_index.schema"]%string.
Definition again_file : world := set_files (fun k => if comps_eqb (snd k) ["d"]%string then Some [] else None) ex_w.
Definition again_dir : world := make_dirs (key_of "/d/e/x") 3 ex_w.
Example C105_multi_example :
  valid_name "x" /\ tree_ok ex_w /\ free_place "/d/e" "x" ex_w /\ free_place "/d/e" "x_index" ex_w /\
  tried_multi "/d/e" "x" ex_w again_mkilled2 /\ w_faults again_mkilled2 = [] /\ new_object 5 again_mkilled2 /\
  wf_struct (index_struct 4 32) /\ wf_vdesc ex_ts /\ mv_schema_ok (FileStorage 5 "/d/e") [65] /\
  Forall (items_ok ex_ts) again_items /\ mv_fits 4 32 ex_ts (map MGrow again_items) /\
  again_files again_mkilled = [None; None; None; Some (index_schema [66])] /\
  again_files again_mkilled2 = [Some (zeros 8 ++ [7; 1; 2]); Some [66]; Some (zeros 8); Some (index_schema [66])] /\
  let (o, w2) := mv_session Release BE 100 4 32 ex_ts (FileStorage 5 "/d/e") "x" [65] (map MGrow again_items) again_mkilled2 in
  match o with
  | Ret (Ok (flags, Ok v)) => flags = repeat true 3 /\ offsets 4 32 v = [0; 4; 4; 9] /\
      again_files w2 = [Some (resource_bytes [7; 1; 2; 3; 200; 10; 0; 254; 255]); Some [65];
        Some (resource_bytes [0; 0; 0; 0; 4; 0; 0; 0; 4; 0; 0; 0; 9; 0; 0; 0]); Some (index_schema [65])]
  | _ => False
  end.
Proof.
  split; [repeat split; discriminate|]. split; [apply again_tree|]. do 2 (split; [repeat split; right; reflexivity|]).
  split; [apply again_mkill_tried, again_mkill_tried, again_mkill_tried, multi_not; split; reflexivity|].
  split; [reflexivity|]. split; [apply again_new|]. split; [apply ex_index_wf|]. split; [apply ex_ts_wf|]. split; [apply mx_schema|].
  split; [repeat (constructor; [repeat (constructor; [split; [cbn; lia|repeat (constructor; [split; cbn; lia|]); constructor]|]); constructor|]); constructor|].
  split; [split; [vm_compute; congruence|]; split; unfold isize_max; vm_compute; congruence|]. vm_compute. repeat split.
Qed.
Example C105_blocked_example :
  ~ free_place "/d/e" "x" again_file /\ ~ free_place "/d/e" "x" again_dir /\ free_place "/d/e" "x_index" again_dir /\
  (let (o, w2) := mv_session Debug LE 6 4 32 ex_ts (FileStorage 1 "/d/e") "x" [65] (map MGrow again_items) again_file in
   o = Ret (Er KOther) /\ again_files w2 = [None; None; None; None]) /\
  (let (o, w2) := mv_session Debug LE 6 4 32 ex_ts (FileStorage 1 "/d/e") "x" [65] (map MGrow again_items) again_dir in
   o = Panic /\ again_files w2 = [None; Some [65]; Some (zeros 8); Some (index_schema [65])]).
Proof.
  split. { intros (_ & _ & [H|H]); [discriminate H|]. specialize (H 1%nat). vm_compute in H. discriminate H. }
  split; [intros (H & _); vm_compute in H; discriminate H|]. split; [repeat split; left; reflexivity|].
  vm_compute. repeat split.
Qed.
