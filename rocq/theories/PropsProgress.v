(** Property C61: building an archive succeeds if nothing is in the way.
    Vocabulary (BuilderSpec.v): [empty_place] (no I/O failures; the directory is
    empty, or does not exist and can be made), [dirs_apart] (sub-archives are not
    named like other resources), [history], [finished], [sufficient] and
    [shows_plan] as in PropsBuilder.v. *)
From Verif Require Import Base BaseFacts Codec CodecSpec CodecFacts Structs StructsSpec StructsFacts Views ViewsSpec ViewsFacts.
From Verif Require Import Storage PathFacts StorageSpec StorageFacts StorageMore StorageUse PropsStorage Writers WritersSpec HandleFacts EncodeFacts.
From Verif Require Import ElsewhereFacts ExtVecFacts ExtVecUse MultiViews MultiSpec MultiViewFacts MultiViewUse MultiVecFacts MultiVecUse.
From Verif Require Import Archives ArchiveSpec ArchiveFacts PropsArchive BuilderSpec BuilderFacts BuilderUse PropsBuilder.
From Verif Require Import DirFacts BuilderProgress.
Local Open Scope list_scope.
Local Open Scope Z_scope.

(** No call fails, panics or has undefined behaviour, in any order of calls. *)
Theorem C61_build_succeeds b e lim a st w ops A :
  wf_archive (is_file st) a -> dirs_apart a -> maps_ok w -> unused_storage st w -> empty_place st w ->
  history (is_file st) a no_plan ops A ->
  exists w1 s' w2, builder_new b e a st w = (Ret (Ok st), w1) /\
    brun b e lim a ops (new_bstate st) w1 = (Ret (repeat true (length ops), s'), w2).
Proof.
  intros Wf Da M Un E H. destruct (build_progress b e lim a st w ops A Wf Da M Un E H) as (w1 & s' & w2 & R1 & R2 & _). eauto.
Qed.
Print Assumptions C61_build_succeeds.

(** So an archive can be built and opened again, by another process on another
    machine: it shows what was set. *)
Theorem C61_round_trip b e b' e' lim a id base w ops A :
  wf_archive true a -> dirs_apart a -> maps_ok w ->
  unused_storage (FileStorage id base) w -> empty_place (FileStorage id base) w ->
  history true a no_plan ops A -> finished A -> sufficient a A ->
  exists w1 r w2 x, builder_new b e a (FileStorage id base) w = (Ret (Ok (FileStorage id base)), w1) /\
    brun b e lim a ops (new_bstate (FileStorage id base)) w1 = (Ret r, w2) /\
    fresh_open b' e' a base w2 = Ret (Ok x) /\ shows_plan a A x.
Proof.
  intros Wf Da M Un E H Fi Su.
  destruct (build_progress b e lim a (FileStorage id base) w ops A Wf Da M Un E H) as (w1 & s' & w2 & R1 & R2 & _).
  destruct (C45_build_open_partial b e b' e' lim a (FileStorage id base) w _ w1 ops A _ s' w2 Wf M Un R1 H Fi R2) as (_ & X).
  { clear. induction (length ops); constructor; auto. }
  destruct (X id base eq_refl) as (r & R3 & [_ Ok'] & Sh). destruct (Ok' Su) as [x ->].
  eexists w1, _, w2, x. split; [exact R1|]. split; [exact R2|]. split; [exact R3|]. apply Sh. reflexivity.
Qed.
Print Assumptions C61_round_trip.

Lemma ex_apart : dirs_apart ex_Arch.
Proof. cbn. repeat split; intuition discriminate. Qed.
Lemma ex_empty : empty_place ex_fs ex_w.
Proof. split; [reflexivity|]. split; [reflexivity|]. intros k _. split; reflexivity. Qed.
Example C61_example : forall b e,
  wf_archive true ex_Arch /\ dirs_apart ex_Arch /\ maps_ok ex_w /\ unused_storage ex_fs ex_w /\ empty_place ex_fs ex_w /\
  history true ex_Arch no_plan ex_ops ex_plan /\ finished ex_plan /\ sufficient ex_Arch ex_plan /\
  omap fst (fst (ex_build b e ex_fs ex_ops ex_w)) = Ret (repeat true 12).
Proof.
  intros b e. split; [apply ex_Arch_wf|]. split; [apply ex_apart|]. split; [apply ex_maps|].
  split; [split; [simpl; lia|simpl; auto]|]. split; [apply ex_empty|]. split; [apply ex_history|].
  split; [apply ex_finished|]. split; [apply ex_sufficient|]. destruct b, e; vm_compute; reflexivity.
Qed.

(** With a file in the way calls fail: the
    hypotheses are needed. *)
Example C61_blocked : forall b e,
  let w := set_files (kupd (key_of "/d") (Some [1]) (w_files ex_w)) ex_w in
  ~ empty_place ex_fs w /\ fst (builder_new b e ex_Arch ex_fs w) = Ret (Er (EIo KOther "Arch.archive")).
Proof.
  intros b e. split; [|destruct b, e; vm_compute; reflexivity].
  intros (_ & N & _). specialize (N 1%nat). vm_compute in N. discriminate N.
Qed.
