(** Property C97: archive builders on targets with any width of usize.
    Vocabulary: WidthBuilders.v ([bstep_w], [brun_w]: the calls of a user of a
    builder, with writers and readers for [W] bits), WidthBuildSpec.v
    ([plan_fits]: no file is larger than half of the address space), and that of
    PropsBuilder.v, PropsProfile.v and PropsNarrowArch.v. *)
From Verif Require Import Base BaseFacts Codec CodecSpec CodecFacts Structs StructsSpec StructsFacts Views ViewsSpec ViewsFacts.
From Verif Require Import Storage PathFacts StorageSpec StorageFacts StorageMore StorageUse PropsStorage Writers WritersSpec.
From Verif Require Import MultiViews MultiSpec Archives ArchiveSpec ArchiveFacts PropsArchive BuilderSpec BuilderFacts BuilderUse PropsBuilder.
From Verif Require Import DirFacts BuilderProgress PropsProgress ProfileSpec Width WidthArchives WidthBuilders WidthBuildSpec WidthBuildFacts WidthBuildUse.
Local Open Scope list_scope.
Local Open Scope Z_scope.

(** If everything fits, a builder does on any target what it does with 64 bits,
    up to the first call that does not succeed, whatever this call does. *)
Theorem C97_same W b e lim a st w st' w1 ops o A flags s' w2 : 1 <= W <= 64 ->
  wf_archive (is_file st) a -> maps_ok w -> unused_storage st w ->
  builder_new b e a st w = (Ret (Ok st'), w1) -> history (is_file st) a no_plan (ops ++ [o]) A ->
  plan_fits (2 ^ (W - 1) - 1) a A ->
  brun b e lim a ops (new_bstate st') w1 = (Ret (flags, s'), w2) -> Forall (eq true) flags ->
  brun_w W b e lim a (ops ++ [o]) (new_bstate st') w1 = brun b e lim a (ops ++ [o]) (new_bstate st') w1.
Proof.
  intros HW Wf M Un R Hh HO Rr Ht.
  exact (proj1 (build_tied W HW True b e lim a st w st' w1 ops o A flags s' w2 Wf M Un R Hh (fun _ => HO) Rr Ht) I).
Qed.
Print Assumptions C97_same.

(** If something does not fit, a debug build panics; what it does before is
    what it does with 64 bits. *)
Theorem C97_debug W e lim a st w st' w1 ops o A flags s' w2 : 1 <= W <= 64 ->
  wf_archive (is_file st) a -> maps_ok w -> unused_storage st w ->
  builder_new Debug e a st w = (Ret (Ok st'), w1) -> history (is_file st) a no_plan (ops ++ [o]) A ->
  brun_w W Debug e lim a ops (new_bstate st') w1 = (Ret (flags, s'), w2) -> Forall (eq true) flags ->
  fst (brun_w W Debug e lim a (ops ++ [o]) (new_bstate st') w1) = Panic \/
  brun_w W Debug e lim a (ops ++ [o]) (new_bstate st') w1 = brun Debug e lim a (ops ++ [o]) (new_bstate st') w1.
Proof. intros HW. exact (build_debug W HW e lim a st w st' w1 ops o A flags s' w2). Qed.
Print Assumptions C97_debug.

(** So what a debug build of any width writes without panicking or failing can be
    opened on a target with 64 bits. *)
Theorem C97_debug_open W e b' e' lim a st w st' w1 ops A flags s' w2 : 1 <= W <= 64 ->
  wf_archive (is_file st) a -> maps_ok w -> unused_storage st w ->
  builder_new Debug e a st w = (Ret (Ok st'), w1) -> history (is_file st) a no_plan ops A -> finished A ->
  brun_w W Debug e lim a ops (new_bstate st') w1 = (Ret (flags, s'), w2) -> Forall (eq true) flags ->
  (exists r w3, open_archive b' e' a st (set_faults [] w2) = (Ret r, w3) /\
     ((exists x, r = Ok x) <-> sufficient a A) /\ forall x, r = Ok x -> shows_plan a A x) /\
  (forall id base, st = FileStorage id base -> exists r, fresh_open b' e' a base w2 = Ret r /\
     ((exists x, r = Ok x) <-> sufficient a A) /\ forall x, r = Ok x -> shows_plan a A x).
Proof. intros HW. exact (build_debug_open W HW e b' e' lim a st w st' w1 ops A flags s' w2). Qed.
Print Assumptions C97_debug_open.

(** A release build of the same width does what the debug build does unless that
    panics; likewise for opening. *)
Theorem C97_release W e lim a ops s : magrees (brun_w W Debug e lim a ops s) (brun_w W Release e lim a ops s).
Proof. exact (wx_brun W e lim a ops s). Qed.
Print Assumptions C97_release.
Theorem C97_release_open W e a st : magrees (open_archive_w W Debug e a st) (open_archive_w W Release e a st).
Proof. exact (wx_open W e a st). Qed.
Print Assumptions C97_release_open.

(** If nothing is in the way and everything fits, all calls succeed. *)
Theorem C97_build_succeeds W b e lim a st w ops A : 1 <= W <= 64 ->
  wf_archive (is_file st) a -> dirs_apart a -> maps_ok w -> unused_storage st w -> empty_place st w ->
  history (is_file st) a no_plan ops A -> plan_fits (2 ^ (W - 1) - 1) a A ->
  exists w1 s' w2, builder_new b e a st w = (Ret (Ok st), w1) /\
    brun_w W b e lim a ops (new_bstate st) w1 = (Ret (repeat true (length ops), s'), w2).
Proof.
  intros HW Wf Da M Un E H HO.
  destruct (build_progress_w W HW b e lim a st w ops A Wf Da M Un E H HO) as (w1 & s' & w2 & R1 & R2 & _). eauto.
Qed.
Print Assumptions C97_build_succeeds.

(** What was built with W bits can be opened with W' bits if everything fits
    there, too, and shows what was set. *)
Theorem C97_round_trip W W' b e b' e' lim a id base w ops A : 1 <= W <= 64 -> 8 <= W' <= 64 ->
  wf_archive true a -> dirs_apart a -> maps_ok w ->
  unused_storage (FileStorage id base) w -> empty_place (FileStorage id base) w ->
  history true a no_plan ops A -> finished A -> sufficient a A ->
  plan_fits (2 ^ (W - 1) - 1) a A -> plan_fits (2 ^ (W' - 1) - 1) a A ->
  exists w1 r w2 x, builder_new b e a (FileStorage id base) w = (Ret (Ok (FileStorage id base)), w1) /\
    brun_w W b e lim a ops (new_bstate (FileStorage id base)) w1 = (Ret r, w2) /\
    fst (open_archive_w W' b' e' a (FileStorage 0 base) (reader_world w2)) = Ret (Ok x) /\ shows_plan a A x.
Proof.
  intros HW HW' Wf Da M Un E H Fi Su F1 F2.
  destruct (build_progress_w W HW b e lim a (FileStorage id base) w ops A Wf Da M Un E H F1) as (w1 & s' & w2 & R1 & R2 & R3).
  destruct (build_open_w W' b e b' e' lim a (FileStorage id base) w _ w1 ops A _ s' w2 HW' Wf M Un R1 H Fi F2 R3) as (_ & X).
  { clear. induction (length ops); constructor; auto. }
  destruct (X id base eq_refl) as (r & R4 & [_ Ok'] & Sh). destruct (Ok' Su) as [x ->].
  eexists w1, _, w2, x. split; [exact R1|]. split; [exact R2|]. split; [exact R4|]. apply Sh. reflexivity.
Qed.
Print Assumptions C97_round_trip.

(** ** Example: the test archive of archive.rs built with 8 bits and opened with 8
    and 32 bits. *)
Lemma nb_fits : plan_fits (2 ^ (8 - 1) - 1) ex_Arch ex_plan.
Proof.
  cbn. repeat split; try lia;
    try (intros [|[|[|k]]] r; cbn; intros [= <-]; cbn; try exact I; try lia; try (intros d [= <-]; vm_compute; congruence); try (intros d; discriminate)).
Qed.
Definition nb_build W b e ops w :=
  match builder_new b e ex_Arch ex_fs w with
  | (Ret (Ok st'), w1) => brun_w W b e 64 ex_Arch ops (new_bstate st') w1
  | (_, w1) => (Panic, w1)
  end.
Definition nb_see W b e w := glances (fst (open_archive_w W b e ex_Arch (FileStorage 0 "/d") (reader_world w))).
Example C97_example : forall b e,
  wf_archive true ex_Arch /\ dirs_apart ex_Arch /\ maps_ok ex_w /\ unused_storage ex_fs ex_w /\ empty_place ex_fs ex_w /\
  history true ex_Arch no_plan ex_ops ex_plan /\ finished ex_plan /\ sufficient ex_Arch ex_plan /\
  plan_fits (2 ^ (8 - 1) - 1) ex_Arch ex_plan /\
  omap fst (fst (nb_build 8 b e ex_ops ex_w)) = Ret (repeat true 12) /\
  let see := Ret (Ok ([Some [1; 2; 3; 4]; None], [Some [1; 0; 2; 0; 3; 0; 4; 0]; None],
           [Some ([0; 0; 0; 0; 5; 0; 0; 0; 5; 0; 0; 0], [1; 5; 0; 6; 0]); None], [Some [9]; None],
           [Some [Some [8; 8]]; None])) in
  nb_see 8 b e (snd (nb_build 8 b e ex_ops ex_w)) = see /\ nb_see 32 b e (snd (nb_build 8 b e ex_ops ex_w)) = see.
Proof.
  intros b e. split; [apply ex_Arch_wf|]. split; [apply ex_apart|]. split; [apply ex_maps|].
  split; [split; [simpl; lia|simpl; auto]|]. split; [apply ex_empty|]. split; [apply ex_history|].
  split; [apply ex_finished|]. split; [apply ex_sufficient|]. split; [apply nb_fits|]. destruct b, e; vm_compute; repeat split.
Qed.
(** A vector of 59 elements with 4 bytes works with 8 bits; for one more, a debug
    build panics and with a release build closing it fails. *)
Definition nb_big n := [BVecStart 0] ++ repeat (BVecGrow 0 [(0%nat, 1)]) n ++ [BVecClose 0].
Definition nb_flags W b n := omap fst (fst (nb_build W b LE (nb_big n) ex_w)).
Example C97_example_big :
  nb_flags 8 Debug 59 = Ret (repeat true 61) /\ nb_flags 8 Release 59 = Ret (repeat true 61) /\
  nb_flags 8 Debug 60 = Panic /\ nb_flags 8 Release 60 = Ret (repeat true 61 ++ [false]) /\ nb_flags 64 Debug 60 = Ret (repeat true 62).
Proof. vm_compute. repeat split. Qed.
(** Closing the multivector, the last call, fails. *)
Example C97_example_fails b : let w := set_faults (repeat FOk 80 ++ [FErr KOther]) ex_w in
  nb_build 8 b LE ex_ops w = ex_build b LE ex_fs ex_ops w /\
  omap fst (fst (nb_build 8 b LE ex_ops w)) = Ret (repeat true 11 ++ [false]).
Proof. destruct b; vm_compute; repeat split. Qed.
