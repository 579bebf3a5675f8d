(** Steps of the rest of the program that leave a resource alone. *)
From Verif Require Import Base BaseFacts Codec Storage PathFacts StorageSpec StorageFacts StorageMore StorageUse.
From Verif Require Import Writers WritersSpec HandleFacts.
Local Open Scope list_scope.
Local Open Scope Z_scope.

Lemma touches_intact P st n w w' : touches P w w' -> ~ P (cell_at st n) -> intact st n w w'.
Proof.
  intros (A1 & A2 & A3 & _) N. destruct st as [id base|id base]; cbn [intact].
  - apply A1. exact N.
  - split; [apply A2; exact N|apply A3; exact N].
Qed.

Lemma other_cells st st' n m : valid_name n -> valid_name m ->
  (st = st' /\ unrelated n m \/ apart st st') ->
  ~ cells_of st' m (cell_at st n) /\ ~ cells_of st' m (cell_at st (schema_name n)).
Proof.
  intros Hn Hm [(<- & A & B & C)|A].
  - apply unrelated_cells; auto. split; auto.
  - assert (Hn' := valid_schema n Hn). assert (Hm' := valid_schema m Hm).
    split; intros [H|H]; revert H; apply apart_cell; auto.
Qed.

Lemma write_elsewhere b e st st' n m schema data : valid_name n -> valid_name m ->
  (st = st' /\ unrelated n m \/ apart st st') ->
  elsewhere st [n; schema_name n] (fun w => snd (write b e st' m schema data w)).
Proof.
  intros Hn Hm H w MO. destruct (other_cells st st' n m Hn Hm H) as (N1 & N2).
  destruct (write b e st' m schema data w) as [o w'] eqn:E. cbn [snd].
  destruct (write_touches _ _ _ _ _ _ _ _ _ E) as (T & C & _). split.
  - intros k [<-|[<-|[]]]; eapply touches_intact; eauto.
  - eapply maps_ok_caches; eauto.
Qed.

Lemma read_elsewhere b e st st' n m expected : valid_name n -> valid_name m ->
  (st = st' /\ unrelated n m \/ apart st st') ->
  elsewhere st [n; schema_name n] (fun w => snd (read b e st' m expected w)).
Proof.
  intros Hn Hm H w MO. destruct (other_cells st st' n m Hn Hm H) as (N1 & N2).
  destruct (read b e st' m expected w) as [o w'] eqn:E. cbn [snd].
  destruct (read_cases _ _ _ _ _ _ _ _ MO E) as ((T & _ & _ & _ & _ & M & _) & _). split; auto.
  intros k [<-|[<-|[]]]; eapply touches_intact; eauto.
Qed.

(** Readers with their own file storage object may read anything. *)
Lemma read_resource_maps id id' base n w o w' : id <> id' ->
  read_resource (FileStorage id' base) n w = (o, w') -> w_maps w' id = w_maps w id.
Proof.
  intros N R. cbn [read_resource] in R. unfold mbind, path_exists, syscall, mbind in R.
  unfold next_fault in R.
  assert (M : forall w0 o0 w0', mmap_read id' (res_path (FileStorage id' base) n) w0 = (o0, w0') ->
    w_maps w0' id = w_maps w0 id).
  { intros w0 o0 w0' R0. unfold mmap_read in R0. destruct (w_maps w0 id' _); [injection R0 as <- <-; auto|].
    assert (A : forall w1 o1 w1', (match w_files w1 (key_of (res_path (FileStorage id' base) n)) with
      | None => (Ret (Er (if is_dir (key_of (res_path (FileStorage id' base) n)) w1 then KOther else KNotFound)), w1)
      | Some c => if len c =? 0 then (Ret (Er KInvalidInput), w1) else
         let w2 := set_maps (nupd id' (supd (res_path (FileStorage id' base) n) (Some (len c)) (w_maps w1 id')) (w_maps w1)) w1 in
         (omap Ok (mapped (key_of (res_path (FileStorage id' base) n)) (len c) w2), w2) end) = (o1, w1') ->
      w_maps w1' id = w_maps w1 id).
    { intros w1 o1 w1' R1. destruct (w_files w1 _) as [c|]; [|injection R1 as <- <-; auto].
      destruct (len c =? 0); [injection R1 as <- <-; auto|]. cbn zeta in R1. injection R1 as <- <-.
      cbn [set_maps w_maps]. apply nupd_other. auto. }
    unfold syscall, next_fault in R0. destruct (w_faults w0) as [|[] fs].
    - apply A in R0. auto.
    - apply A in R0. auto.
    - injection R0 as <- <-; auto.
    - injection R0 as <- <-; auto.
    - injection R0 as <- <-; auto. }
  destruct (w_faults w) as [|[] fs]; cbn in R.
  - destruct (on_disk _ _); [apply M in R; auto|injection R as <- <-; auto].
  - destruct (on_disk _ _); [apply M in R; auto|injection R as <- <-; auto].
  - injection R as <- <-; auto.
  - injection R as <- <-; auto.
  - injection R as <- <-; auto.
Qed.

Lemma own_reader_elsewhere b e id base id' base' m expected names : id <> id' ->
  elsewhere (FileStorage id base) names (fun w => snd (read b e (FileStorage id' base') m expected w)).
Proof.
  intros N w MO. destruct (read b e (FileStorage id' base') m expected w) as [o w'] eqn:E. cbn [snd].
  destruct (read_cases _ _ _ _ _ _ _ _ MO E) as ((_ & _ & F & _ & _ & M & _) & _). split; auto.
  assert (K : w_maps w' id = w_maps w id).
  { unfold read, mtry, mbind in E.
    destruct (read_resource (FileStorage id' base') m w) as [o1 w1] eqn:E1. apply (read_resource_maps id) in E1; auto.
    destruct o1 as [[d|k]| | |]; try (injection E as <- <-; auto).
    destruct (read_resource (FileStorage id' base') (schema_name m) w1) as [o2 w2] eqn:E2.
    apply (read_resource_maps id) in E2; auto.
    destruct o2 as [[d2|k]| | |]; injection E as <- <-; congruence. }
  intros n _. cbn [intact]. rewrite F, K. auto.
Qed.
