(** Property C84: copying an archive.
    Vocabulary (CopySpec.v): [copy_ops] (the calls of a program that copies what
    an opened archive shows, [fields]: field by field), [whole], [copyable];
    [same_tree] as in PropsRepro.v, [history], [finished], [empty_place] as in
    PropsBuilder.v, PropsProgress.v. *)
From Verif Require Import Base BaseFacts Codec CodecSpec CodecFacts Structs StructsSpec StructsFacts Views ViewsSpec ViewsFacts.
From Verif Require Import Storage PathFacts StorageSpec StorageFacts StorageMore StorageUse PropsStorage Writers WritersSpec HandleFacts EncodeFacts.
From Verif Require Import ElsewhereFacts ExtVecFacts ExtVecUse MultiViews MultiSpec MultiViewFacts MultiViewUse MultiVecFacts MultiVecUse.
From Verif Require Import Archives ArchiveSpec ArchiveFacts PropsArchive BuilderSpec BuilderFacts BuilderUse PropsBuilder.
From Verif Require Import DirFacts BuilderProgress PropsProgress ReproSpec ReproFacts PropsRepro CopySpec CopyFacts.
Local Open Scope list_scope.
Local Open Scope Z_scope.

(** fill_from makes one setter call for each field, with the value read from the
    other struct. *)
Theorem C84_fill_sets b e s m other : wf_struct s -> bytes_ok other -> s_size s <= len other ->
  fill_from b e s m other = run_sets b e s (fill_sets (decode s other)) m.
Proof. exact (fill_from_sets b e s m other). Qed.
Print Assumptions C84_fill_sets.

(** An archive is built, opened (perhaps on another machine) and copied to
    another place (perhaps on a third machine): reading succeeds, every call on the
    builder succeeds, and the copy has the same files with the same bytes. *)
Theorem C84_copy_partial b e lim b' e' lim' b2 e2 fields a id base w ops A w1 r w2 x id' base' w' :
  wf_archive true a -> dirs_apart a ->
  maps_ok w -> unused_storage (FileStorage id base) w -> empty_place (FileStorage id base) w ->
  history true a no_plan ops A -> finished A -> whole a A -> copyable fields a A ->
  builder_new b e a (FileStorage id base) w = (Ret (Ok (FileStorage id base)), w1) ->
  brun b e lim a ops (new_bstate (FileStorage id base)) w1 = (Ret r, w2) ->
  fresh_open b2 e2 a base w2 = Ret (Ok x) ->
  maps_ok w' -> unused_storage (FileStorage id' base') w' -> empty_place (FileStorage id' base') w' ->
  exists cops w1' r' w2', copy_ops b2 e2 fields a x = Ret cops /\
    builder_new b' e' a (FileStorage id' base') w' = (Ret (Ok (FileStorage id' base')), w1') /\
    brun b' e' lim' a cops (new_bstate (FileStorage id' base')) w1' = (Ret r', w2') /\
    fst r' = repeat true (length cops) /\ same_tree base w2 base' w2'.
Proof. exact (copy_same b e lim b' e' lim' b2 e2 fields a id base w ops A w1 r w2 x id' base' w'). Qed.
Print Assumptions C84_copy_partial.

Definition ex_copied (b : build) (e : endian) (fields : bool) (a : adesc) (base : string) (w : world) : outcome (list bop) :=
  match fresh_open b e a base w with
  | Ret (Ok x) => copy_ops b e fields a x
  | _ => Panic
  end.
Lemma ex_whole : whole ex_Arch ex_plan.
Proof.
  constructor. intros [|[|k]] s A'; [| |destruct k; discriminate].
  - intros [= <-] [= <-]. split.
    + cbn. repeat split; intros [|[|k]]; cbn; try discriminate.
    + constructor. intros k s A'. destruct k; discriminate.
  - intros _. discriminate.
Qed.
Lemma ex_copyable fields : copyable fields ex_Arch ex_plan.
Proof.
  constructor.
  - intros [|[|k]] r d _; [| |destruct k; discriminate]; [|discriminate]. intros [= <-] [= <-].
    split; [apply wf_struct_dec; reflexivity|].
    assert (E : run_sets Debug LE ex_A [(0%nat, 513); (1%nat, 1027)] (zeros 4) = Ret [1; 2; 3; 4]) by reflexivity.
    apply (encodes_run ex_A) in E; [exact E|apply wf_struct_dec; reflexivity|sets_solve].
  - intros [|[|k]] r d _; [| |destruct k; discriminate]; discriminate.
  - intros [|[|k]] s A'; [| |destruct k; discriminate]; [|discriminate]. intros [= <-] [= <-].
    constructor; intros [|k]; discriminate.
Qed.
Example C84_example : forall b e fields,
  wf_archive true ex_Arch /\ dirs_apart ex_Arch /\ maps_ok ex_w /\ unused_storage ex_fs ex_w /\ empty_place ex_fs ex_w /\
  history true ex_Arch no_plan ex_ops ex_plan /\ finished ex_plan /\ whole ex_Arch ex_plan /\ copyable fields ex_Arch ex_plan /\
  unused_storage ex_fs2 ex_w2 /\ empty_place ex_fs2 ex_w2 /\
  match ex_copied b e fields ex_Arch "/d" (snd (ex_build b e ex_fs ex_ops ex_w)) with
  | Ret cops =>
      length cops = (if fields then 12 else 9)%nat /\
      w_files (snd (ex_build b e ex_fs2 cops ex_w2)) (inside "/e/f" ["v"%string]) =
        Some [8; 0; 0; 0; 0; 0; 0; 0; 1; 0; 2; 0; 3; 0; 4; 0; 0; 0; 0; 0; 0; 0; 0; 0]
  | _ => False
  end.
Proof.
  intros b e fields. split; [apply ex_Arch_wf|]. split; [apply ex_apart|]. split; [apply ex_maps|].
  split; [split; [simpl; lia|simpl; auto]|]. split; [apply ex_empty|]. split; [apply ex_history|].
  split; [apply ex_finished|]. split; [apply ex_whole|]. split; [apply ex_copyable|].
  split; [split; [simpl; lia|simpl; auto]|]. split; [apply ex_empty2|]. destruct b, e, fields; vm_compute; split; reflexivity.
Qed.

(** Without [whole]: an optional sub-archive without its data is not seen by
    readers, so its files are lost. *)
Theorem C84_whole_refuted : forall b e fields,
  match ex_copied b e fields ex_Arch "/d" (snd (ex_build b e ex_fs (ex_ops ++ [BSubNew 1]) ex_w)) with
  | Ret cops =>
      w_files (snd (ex_build b e ex_fs (ex_ops ++ [BSubNew 1]) ex_w)) (inside "/d" ["opt_arch"; "SubArch.archive"]%string) <> None /\
      w_files (snd (ex_build b e ex_fs2 cops ex_w2)) (inside "/e/f" ["opt_arch"; "SubArch.archive"]%string) = None
  | _ => False
  end.
Proof. intros b e fields. destruct b, e, fields; vm_compute; split; congruence. Qed.
Print Assumptions C84_whole_refuted.

(** Without [copyable]: copying field by field loses the bits between fields;
    copying the struct does not. *)
Definition ex_gap := mkStruct 4 [mkField U32 0 16].
Definition ex_Gap := mkArchive "Gap" (str "Gap schema") [mkTyped "g" ex_gap (str "g schema") false] [] [] [] [].
Definition ex_gap_build (b : build) (e : endian) (st : storage) (ops : list bop) (w : world) :=
  match builder_new b e ex_Gap st w with
  | (Ret (Ok st'), w1) => snd (brun b e 64 ex_Gap ops (new_bstate st') w1)
  | (_, w1) => w1
  end.
Theorem C84_copyable_refuted : forall b e fields,
  wf_struct ex_gap /\
  match ex_copied b e fields ex_Gap "/d" (ex_gap_build b e ex_fs [BStruct 0 [1; 2; 3; 4]] ex_w) with
  | Ret cops =>
      w_files (ex_gap_build b e ex_fs2 cops ex_w2) (inside "/e/f" ["g"%string]) =
        Some ([4; 0; 0; 0; 0; 0; 0; 0; 1; 2] ++ (if fields then [0; 0] else [3; 4]) ++ zeros 8)
  | _ => False
  end.
Proof. intros b e fields. split; [apply wf_struct_dec; reflexivity|]. destruct b, e, fields; vm_compute; reflexivity. Qed.
Print Assumptions C84_copyable_refuted.
