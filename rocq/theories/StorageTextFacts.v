(** Facts about the texts of storages (C106). *)
From Coq Require Import Sorted.
From Verif Require Import Base BaseFacts Codec CodecFacts Storage PathFacts StorageSpec StorageFacts StorageMore StorageUse Text TextFacts ErrorText ErrorTextSpec ErrorTextFacts.
From Verif Require Import StorageText StorageTextSpec.
Local Open Scope string_scope.
Local Open Scope list_scope.
Local Open Scope Z_scope.

(** * Order *)
Lemma before_irrefl p : ~ before p p.
Proof. unfold before. induction p as [|c p IH]; cbn; [discriminate|]. unfold Ascii.compare. rewrite N.compare_refl. exact IH. Qed.
Lemma before_trans p : forall q r, before p q -> before q r -> before p r.
Proof.
  unfold before. induction p as [|c p IH]; intros [|d q] [|f r] H1 H2; cbn in *; try discriminate; auto.
  unfold Ascii.compare in *.
  destruct (N.compare_spec (N_of_ascii c) (N_of_ascii d)) as [E1|L1|L1]; try discriminate;
  destruct (N.compare_spec (N_of_ascii d) (N_of_ascii f)) as [E2|L2|L2]; try discriminate;
  destruct (N.compare_spec (N_of_ascii c) (N_of_ascii f)) as [E3|L3|L3]; auto; try lia. eauto.
Qed.
Lemma before_total p q : p = q \/ before p q \/ before q p.
Proof.
  unfold before. destruct (String.compare p q) eqn:E; auto.
  - left. apply String.compare_eq_iff, E.
  - right. right. rewrite String.compare_antisym, E. reflexivity.
Qed.
Lemma sorted_unique l l' : StronglySorted before (map fst l) -> StronglySorted before (map fst l') ->
  (forall x : string * Z, In x l <-> In x l') -> l = l'.
Proof.
  revert l'. induction l as [|x l IH]; intros [|y l'] S S' E.
  - reflexivity.
  - destruct (proj2 (E y) (or_introl eq_refl)).
  - destruct (proj1 (E x) (or_introl eq_refl)).
  - apply StronglySorted_inv in S as [S F], S' as [S' F']. rewrite Forall_forall in F, F'.
    assert (Xy : x = y).
    { destruct (proj1 (E x) (or_introl eq_refl)) as [H|H]; [auto|]. destruct (proj2 (E y) (or_introl eq_refl)) as [G|G]; [auto|].
      destruct (before_irrefl (fst x)). eapply before_trans; [apply F, in_map, G|apply F', in_map, H]. }
    subst y. f_equal. apply IH; auto. intros z. specialize (E z). split; intros H.
    + destruct (proj1 E (or_intror H)) as [<-|G]; [|exact G]. destruct (before_irrefl (fst x)). apply F, in_map, H.
    + destruct (proj2 E (or_intror H)) as [<-|G]; [|exact G]. destruct (before_irrefl (fst x)). apply F', in_map, H.
Qed.
Lemma insert_sorted p (n : Z) l : StronglySorted before (map fst l) -> ~ In p (map fst l) ->
  exists l', StronglySorted before (map fst l') /\ forall x, In x l' <-> x = (p, n) \/ In x l.
Proof.
  induction l as [|[q m] l IH]; intros S N; cbn [map fst] in S, N.
  - exists [(p, n)]. split; [repeat constructor|]. intros x. cbn. intuition.
  - apply StronglySorted_inv in S as [S F]. destruct (before_total p q) as [->|[L|L]]; [destruct N; left; reflexivity|..].
    + exists ((p, n) :: (q, m) :: l). split; [|cbn; intuition]. cbn [map fst]. constructor; [constructor; auto|].
      constructor; [exact L|]. eapply Forall_impl; [|exact F]. intros r. apply before_trans. exact L.
    + destruct (IH S) as (l' & S' & E). { intros H. apply N. right. exact H. }
      exists ((q, m) :: l'). split.
      * cbn [map fst]. constructor; [exact S'|]. rewrite Forall_forall in *. intros r H. apply in_map_iff in H as (y & <- & H).
        apply E in H as [->|H]; [exact L|]. apply F, in_map, H.
      * intros x. cbn [In]. rewrite E. tauto.
Qed.

(** * Which keys there are *)
Lemma keys_same {K V V'} (l : list K) (m : K -> option V) (m' : K -> option V') :
  (forall k, m k <> None <-> m' k <> None) -> keys_are l m -> keys_are l m'.
Proof. intros E (N & H). split; [exact N|]. intros k. rewrite H. apply E. Qed.
Lemma keys_count {K V} (l l' : list K) (m : K -> option V) : keys_are l m -> keys_are l' m -> List.length l = List.length l'.
Proof.
  intros (N & H) (N' & H'). apply Nat.le_antisymm; apply NoDup_incl_length; auto; intros k X.
  - apply H', H, X.
  - apply H, H', X.
Qed.
Definition finite_map {K V} (m : K -> option V) : Prop := exists l, keys_are l m.
Lemma finite_same {K V V'} (m : K -> option V) (m' : K -> option V') : (forall k, m k <> None <-> m' k <> None) -> finite_map m -> finite_map m'.
Proof. intros E (l & H). exists l. eapply keys_same; eauto. Qed.
Lemma finite_kupd {V} k (x : V) m : finite_map m -> finite_map (kupd k (Some x) m).
Proof.
  intros (l & N & H). destruct (m k) as [y|] eqn:E.
  - exists l. split; [exact N|]. intros k'. rewrite H. destruct (key_eq_dec k' k) as [->|Nk]; [rewrite kupd_same|rewrite kupd_other by exact Nk; reflexivity].
    split; intros _; congruence.
  - exists (k :: l). split.
    + constructor; [|exact N]. rewrite H. congruence.
    + intros k'. cbn [In]. destruct (key_eq_dec k' k) as [->|Nk]; [rewrite kupd_same|rewrite kupd_other by exact Nk; rewrite <- H].
      * split; [discriminate|auto].
      * split; [intros [X|X]; [congruence|exact X]|auto].
Qed.
Definition listed_map (m : string -> option Z) : Prop :=
  exists l, entries_are l m.
Lemma listed_supd p n m : listed_map m -> m p = None -> listed_map (supd p (Some n) m).
Proof.
  intros (l & S & H) Np. destruct (insert_sorted p n l S) as (l' & S' & E).
  { intros X. apply in_map_iff in X as ([q k] & E & X). cbn in E. subst q. apply H in X. congruence. }
  exists l'. split; [exact S'|]. intros q k. rewrite E, H. unfold supd. destruct (String.eqb_spec q p) as [->|Nq].
  - rewrite Np. split; [intros [X|X]; [congruence|discriminate]|intros [= <-]; auto].
  - split; [intros [X|X]; [congruence|exact X]|auto].
Qed.

(** All maps are finite, and what has been read in memory has been written. *)
Definition tidy_maps (w : world) : Prop := forall id,
  finite_map (w_streams w id) /\ finite_map (w_resources w id) /\ listed_map (w_maps w id) /\
  forall k, w_resources w id k <> None -> w_streams w id k <> None.
Definition same_names (w w' : world) : Prop :=
  (forall id k, w_streams w' id k <> None <-> w_streams w id k <> None) /\ w_resources w' = w_resources w /\ w_maps w' = w_maps w.
Lemma same_names_refl w : same_names w w.
Proof. repeat split; auto. Qed.
Lemma same_names_trans w1 w2 w3 : same_names w1 w2 -> same_names w2 w3 -> same_names w1 w3.
Proof. intros (A & B & C) (A' & B' & C'). split; [|split; congruence]. intros id k. rewrite A'. apply A. Qed.
Lemma same_names_tidy w w' : same_names w w' -> tidy_maps w -> tidy_maps w'.
Proof.
  intros (A & B & C) T id. destruct (T id) as (T1 & T2 & T3 & T4). rewrite B, C. split; [|split; [exact T2|split; [exact T3|]]].
  - eapply finite_same; [|exact T1]. intros k. symmetry. apply A.
  - intros k H. apply A, T4, H.
Qed.
Lemma names_eq w w' : w_streams w' = w_streams w -> w_resources w' = w_resources w -> w_maps w' = w_maps w -> same_names w w'.
Proof. intros A B C. split; [rewrite A; reflexivity|auto]. Qed.
Lemma syscall_names {A} (act : M (result A io_kind)) w o w' : (forall u x y, act u = (x, y) -> same_names u y) ->
  syscall act w = (o, w') -> same_names w w'.
Proof.
  intros H R. assert (N : same_names w (set_faults (tl (w_faults w)) w)) by (apply names_eq; reflexivity).
  destruct (syscall_eq act w) as [(w1 & -> & E)|(_ & o1 & E & _)]; rewrite E in R.
  - eapply same_names_trans; [exact N|]. eapply H, R.
  - injection R as <- <-. exact N.
Qed.
Lemma kupd_names w id k x : w_streams w id k <> None -> same_names w (set_streams (nupd id (kupd k (Some x) (w_streams w id)) (w_streams w)) w).
Proof.
  intros H. split; [|split; reflexivity]. intros i k'. cbn [w_streams set_streams]. destruct (Nat.eq_dec i id) as [->|Ni].
  - rewrite nupd_same. destruct (key_eq_dec k' k) as [->|Nk]; [rewrite kupd_same|rewrite kupd_other by exact Nk; reflexivity].
    split; [auto|discriminate].
  - rewrite nupd_other by exact Ni. reflexivity.
Qed.
Lemma write_all_names s d w o w' : write_all s d w = (o, w') -> same_names w w'.
Proof.
  intros R. destruct s as [id k|k p]; cbn in R.
  - destruct (w_streams w id k) as [[c p]|] eqn:E; injection R as <- <-; [|apply same_names_refl]. apply kupd_names. congruence.
  - destruct d as [|x d]; [injection R as <- <-; apply same_names_refl|].
    destruct (next_fault w) as [f w1] eqn:Ef. destruct (next_fault_cases _ _ _ Ef) as [-> _].
    destruct f; injection R as <- <-; apply names_eq; reflexivity.
Qed.
Lemma seek_names s w o w' : seek_start s w = (o, w') -> same_names w w'.
Proof.
  intros R. destruct s as [id k|k p]; cbn in R.
  - destruct (w_streams w id k) as [[c p]|] eqn:E; injection R as <- <-; [|apply same_names_refl]. apply kupd_names. congruence.
  - unfold mbind in R. destruct (syscall (mret (Ok tt)) w) as [[[x|x]| | |] w1] eqn:E;
      (apply syscall_names in E; [|intros u y z [= <- <-]; apply same_names_refl]); injection R as <- <-; exact E.
Qed.
Lemma path_exists_names k w o w' : path_exists k w = (o, w') -> same_names w w'.
Proof.
  intros R. unfold path_exists, mbind in R.
  match type of R with match ?m with _ => _ end = _ => destruct m as [[[x|x]| | |] w1] eqn:E end;
    (apply syscall_names in E; [|intros u y z [= <- <-]; apply same_names_refl]); injection R as <- <-; exact E.
Qed.
Lemma exists_names st n w o w' : exists_ st n w = (o, w') -> same_names w w'.
Proof. intros R. destruct st; cbn in R; [injection R as <- <-; apply same_names_refl|apply path_exists_names in R; exact R]. Qed.
Lemma create_file_names id base n w o w' : create_output_stream (FileStorage id base) n w = (o, w') -> same_names w w'.
Proof.
  intros R. unfold create_output_stream, mtry, mbind in R. destruct (path_exists (key_of base) w) as [o1 w1] eqn:E1.
  assert (N1 := path_exists_names _ _ _ _ E1). destruct o1 as [x| | |]; try (injection R as <- <-; exact N1).
  destruct ((if x then mret (Ok tt) else create_dir_all (key_of base)) w1) as [o2 w2] eqn:E2.
  assert (N2 : same_names w1 w2).
  { destruct x; [injection E2 as <- <-; apply same_names_refl|]. unfold create_dir_all in E2.
    destruct (next_fault w1) as [f w3] eqn:Ef. destruct (next_fault_cases _ _ _ Ef) as [-> _].
    destruct f; try destruct (file_on_path _ _); injection E2 as <- <-; apply names_eq; reflexivity. }
  eapply same_names_trans; [exact N1|]. destruct o2 as [[y|k]| | |]; try (injection R as <- <-; exact N2).
  eapply same_names_trans; [exact N2|]. unfold file_create in R. eapply syscall_names; [|exact R].
  intros u a z H. cbv beta in H. destruct (is_dir (res_key (FileStorage id base) n) u); [injection H as <- <-; apply same_names_refl|].
  destruct (is_dir (parent (res_key (FileStorage id base) n)) u); injection H as <- <-; apply names_eq; reflexivity.
Qed.

Lemma mem_create id base n w : exists w', create_output_stream (MemStorage id base) n w = (Ret (Ok (SMem id (res_key (MemStorage id base) n))), w') /\
  w_resources w' = w_resources w /\ w_maps w' = w_maps w /\ (forall i k, w_streams w' i k <> None <-> w_streams w i k <> None \/ i = id /\ k = res_key (MemStorage id base) n).
Proof.
  eexists. split; [reflexivity|]. set (k0 := res_key (MemStorage id base) n). destruct (w_streams w id k0) as [x|] eqn:E.
  - split; [reflexivity|]. split; [reflexivity|]. intros i k. split; [auto|]. intros [H|(-> & ->)]; [exact H|congruence].
  - split; [reflexivity|]. split; [reflexivity|]. intros i k. cbn [w_streams set_streams]. destruct (Nat.eq_dec i id) as [->|Ni].
    + rewrite nupd_same. destruct (key_eq_dec k k0) as [->|Nk]; [rewrite kupd_same|rewrite kupd_other by exact Nk].
      * split; [auto|discriminate].
      * split; [auto|]. intros [H|(_ & H)]; [exact H|congruence].
    + rewrite nupd_other by exact Ni. split; [auto|]. intros [H|(H & _)]; [exact H|congruence].
Qed.
Lemma create_tidy st n w o w' : create_output_stream st n w = (o, w') -> tidy_maps w -> tidy_maps w'.
Proof.
  intros R T. destruct st as [id base|id base]; [|eapply same_names_tidy; [eapply create_file_names; exact R|exact T]].
  cbn in R. injection R as <- <-. set (k0 := res_key (MemStorage id base) n). destruct (w_streams w id k0) as [x|] eqn:E; [exact T|].
  intros i. destruct (T i) as (T1 & T2 & T3 & T4). cbn [w_streams w_resources w_maps set_streams].
  destruct (Nat.eq_dec i id) as [->|Ni]; [rewrite nupd_same|rewrite nupd_other by exact Ni; auto].
  split; [apply finite_kupd, T1|]. split; [exact T2|]. split; [exact T3|]. intros k H.
  destruct (key_eq_dec k k0) as [->|Nk]; [rewrite kupd_same; discriminate|rewrite kupd_other by exact Nk; auto].
Qed.
Lemma read_tidy st n w o w' : read_resource st n w = (o, w') -> tidy_maps w -> tidy_maps w'.
Proof.
  intros R T. destruct st as [id base|id base].
  - cbn in R. set (k0 := res_key (MemStorage id base) n) in *. destruct (w_resources w id k0) as [c|] eqn:E1; [injection R as <- <-; exact T|].
    destruct (w_streams w id k0) as [[c p]|] eqn:E2; injection R as <- <-; [|exact T].
    intros i. destruct (T i) as (T1 & T2 & T3 & T4). cbn [w_streams w_resources w_maps set_resources].
    destruct (Nat.eq_dec i id) as [->|Ni]; [rewrite nupd_same|rewrite nupd_other by exact Ni; auto].
    split; [exact T1|]. split; [apply finite_kupd, T2|]. split; [exact T3|]. intros k H.
    destruct (key_eq_dec k k0) as [->|Nk]; [congruence|rewrite kupd_other in H by exact Nk; auto].
  - unfold read_resource, mbind in R. destruct (path_exists (res_key (FileStorage id base) n) w) as [o1 w1] eqn:E1.
    assert (T1 := same_names_tidy _ _ (path_exists_names _ _ _ _ E1) T). destruct o1 as [x| | |]; try (injection R as <- <-; exact T1).
    destruct x; [|injection R as <- <-; exact T1]. unfold mmap_read in R. destruct (w_maps w1 id _) as [l|] eqn:Em; [injection R as <- <-; exact T1|].
    match type of R with syscall ?act _ = _ => destruct (syscall_eq act w1) as [(w2 & -> & E)|(_ & o2 & E & _)]; rewrite E in R end.
    2:{ injection R as <- <-. exact T1. }
    set (w2 := set_faults (tl (w_faults w1)) w1) in *. destruct (w_files w2 _) as [c|]; [|injection R as <- <-; exact T1].
    destruct (len c =? 0); injection R as <- <-; [exact T1|].
    intros i. destruct (T1 i) as (U1 & U2 & U3 & U4). cbn [w_streams w_resources w_maps set_maps w2 set_faults].
    split; [exact U1|]. split; [exact U2|]. split; [|exact U4].
    destruct (Nat.eq_dec i id) as [->|Ni]; [rewrite nupd_same|rewrite nupd_other by exact Ni; exact U3]. apply listed_supd; auto.
Qed.
Lemma empty_finite {K V} : finite_map (fun _ : K => @None V).
Proof. exists []. split; [constructor|]. intros k. split; [intros []|intros H; apply H; reflexivity]. Qed.
Lemma empty_listed : listed_map (fun _ => None).
Proof. exists []. split; [constructor|]. intros p n. split; [intros []|discriminate]. Qed.
Lemma api_tidy A (m : M A) : api m -> forall w o w', m w = (o, w') -> tidy_maps w -> tidy_maps w'.
Proof.
  induction 1 as [A a|A o0|A B m f Hm IHm Hf IHf|base|base|st n|st n|st n|s d|s]; intros w o w' R T.
  - injection R as <- <-. exact T.
  - injection R as <- <-. exact T.
  - unfold mbind in R. destruct (m w) as [o1 w1] eqn:E. assert (T1 := IHm _ _ _ E T).
    destruct o1 as [a| | |]; try (injection R as <- <-; exact T1). eapply IHf; eauto.
  - injection R as <- <-. intros i. destruct (T i) as (T1 & T2 & T3 & T4). cbn.
    destruct (Nat.eq_dec i (w_next w)) as [->|Ni]; [rewrite !nupd_same|rewrite !nupd_other by exact Ni; auto].
    split; [apply empty_finite|]. split; [apply empty_finite|]. split; [exact T3|]. intros k H. destruct H. reflexivity.
  - injection R as <- <-. intros i. destruct (T i) as (T1 & T2 & T3 & T4). cbn.
    destruct (Nat.eq_dec i (w_next w)) as [->|Ni]; [rewrite !nupd_same|rewrite !nupd_other by exact Ni; auto].
    split; [exact T1|]. split; [exact T2|]. split; [apply empty_listed|exact T4].
  - eapply same_names_tidy; [eapply exists_names, R|exact T].
  - eapply read_tidy; eauto.
  - eapply create_tidy; eauto.
  - eapply same_names_tidy; [eapply write_all_names, R|exact T].
  - eapply same_names_tidy; [eapply seek_names, R|exact T].
Qed.
Lemma no_storages_tidy w : no_storages w -> tidy_maps w.
Proof.
  intros (A & B & C) id. split; [|split; [|split]].
  - eapply finite_same; [|apply (@empty_finite key (list Z * Z))]. intros k. rewrite A. tauto.
  - eapply finite_same; [|apply (@empty_finite key (list Z))]. intros k. rewrite B. tauto.
  - destruct empty_listed as (l & S & H). exists l. split; [exact S|]. intros p n. rewrite C. apply H.
  - intros k H. rewrite B in H. destruct H. reflexivity.
Qed.
Lemma says_unique v mm w st t t' : storage_says v mm w st t -> storage_says v mm w st t' -> t' = t.
Proof.
  intros H H'. destruct H as [id base ks kr S R|id base l (S & R)]; inversion H' as [|? ? ? (S' & R')]; subst.
  - f_equal; eapply keys_count; eauto.
  - f_equal. apply sorted_unique; auto. intros [p n]. rewrite R. apply R'.
Qed.
Lemma tidy_says v mm w st : tidy_maps w -> exists t, storage_says v mm w st t.
Proof.
  intros T. destruct st as [id base|id base]; destruct (T id) as ((ks & K) & (kr & R) & (l & L) & _).
  - eexists. apply says_mem; eauto.
  - eexists. apply says_file; eauto.
Qed.
Lemma tidy_fewer w id ks kr : tidy_maps w -> keys_are ks (w_streams w id) -> keys_are kr (w_resources w id) -> (List.length kr <= List.length ks)%nat.
Proof.
  intros T (_ & K) (N & R). destruct (T id) as (_ & _ & _ & F). apply NoDup_incl_length; [exact N|]. intros k H. apply K, F, R, H.
Qed.

(** * Counting the names of a memory storage *)
Section Mem.
Variables (b : build) (e : endian) (id : nat) (base : string).
Let st := MemStorage id base.
Lemma mem_write_all k d w r w' : write_all (SMem id k) d w = (Ret r, w') -> r = (Ok tt, SMem id k).
Proof. cbn. destruct (w_streams w id k) as [[c p]|]; intros H; inversion H; reflexivity. Qed.
Lemma mem_write_to d k w r w' : write_to_stream b e d (SMem id k) w = (Ret r, w') -> r = Ok tt /\ same_names w w'.
Proof.
  unfold write_to_stream, stry, write_size, write_padding, mbind, lift.
  destruct (write_bytes b e U64 (len d) (zeros 8) 0 64) as [x| | |]; try discriminate.
  destruct (write_all (SMem id k) x w) as [[r1| | |] w1] eqn:E1; try discriminate. rewrite (mem_write_all _ _ _ _ _ E1).
  destruct (write_all (SMem id k) d w1) as [[r2| | |] w2] eqn:E2; try discriminate. rewrite (mem_write_all _ _ _ _ _ E2).
  destruct (write_all (SMem id k) (zeros PADDING_SIZE) w2) as [[r3| | |] w3] eqn:E3; try discriminate. rewrite (mem_write_all _ _ _ _ _ E3).
  intros [= <- <-]. split; [reflexivity|]. apply write_all_names in E1, E2, E3. eauto using same_names_trans.
Qed.
Lemma mem_write n schema data w r w' : write b e st n schema data w = (Ret r, w') ->
  w_resources w' = w_resources w /\
  (forall k, w_streams w' id k <> None <-> w_streams w id k <> None \/ k = res_key st n \/ k = res_key st (schema_name n)).
Proof.
  intros R. unfold write, mtry, mbind in R. destruct (mem_create id base n w) as (w1 & E1 & R1 & _ & S1). fold st in E1, S1. rewrite E1 in R.
  destruct (write_to_stream b e data (SMem id (res_key st n)) w1) as [[r2| | |] w2] eqn:E2; try discriminate R.
  destruct (mem_write_to _ _ _ _ _ E2) as (-> & S2 & R2 & _).
  destruct (mem_create id base (schema_name n) w2) as (w3 & E3 & R3 & _ & S3). fold st in E3, S3. rewrite E3 in R.
  unfold write_schema, stry, mbind in R. destruct (write_all _ schema w3) as [[r4| | |] w4] eqn:E4; try discriminate R.
  rewrite (mem_write_all _ _ _ _ _ E4) in R. injection R as <- <-. destruct (write_all_names _ _ _ _ _ E4) as (S4 & R4 & _).
  split; [congruence|]. intros k. rewrite S4, S3, S2, S1. intuition.
Qed.
Lemma mem_read_resource n w : (forall k, w_resources w id k <> None -> w_streams w id k <> None) ->
  exists r w', read_resource st n w = (Ret r, w') /\ w_streams w' = w_streams w /\
    match r with
    | Ok _ => w_streams w id (res_key st n) <> None /\
        forall k, w_resources w' id k <> None <-> w_resources w id k <> None \/ k = res_key st n
    | Er _ => w_streams w id (res_key st n) = None /\ w_resources w' = w_resources w
    end.
Proof.
  intros F. unfold st. cbn [read_resource]. fold st. set (k0 := res_key st n).
  destruct (w_resources w id k0) as [c|] eqn:E1.
  - exists (Ok (whole c)), w. split; [reflexivity|]. split; [reflexivity|]. split; [apply F; congruence|].
    intros k. split; [auto|]. intros [H| ->]; congruence.
  - destruct (w_streams w id k0) as [[c p]|] eqn:E2.
    + eexists _, _. split; [reflexivity|]. split; [reflexivity|]. split; [discriminate|].
      intros k. cbn [w_resources set_resources]. rewrite nupd_same. destruct (key_eq_dec k k0) as [->|Nk]; [rewrite kupd_same|rewrite kupd_other by exact Nk].
      * split; [auto|discriminate].
      * split; [auto|]. intros [H|H]; [exact H|congruence].
    + eexists _, _. split; [reflexivity|]. split; [reflexivity|]. split; reflexivity.
Qed.
Definition named (l : list string) {V} (m : key -> option V) : Prop :=
  NoDup l /\ Forall valid_name l /\ forall k, m k <> None <-> exists n, In n l /\ k = res_key st n.
Lemma named_keys l {V} (m : key -> option V) : named l m -> keys_are (map (res_key st) l) m.
Proof.
  intros (N & F & H). split.
  - clear H. induction N as [|x l Nx N IH]; [constructor|]. apply Forall_cons_iff in F as [Vx F]. cbn [map]. constructor; [|apply IH, F].
    intros X. apply in_map_iff in X as (y & Ey & X). apply Nx. rewrite Forall_forall in F.
    rewrite (res_key_inj st x y Vx (F _ X) (eq_sym Ey)). exact X.
  - intros k. rewrite H, in_map_iff. split; intros (n & A & B); exists n; auto.
Qed.
Lemma add_in n l x : In x (add n l) <-> x = n \/ In x l.
Proof. unfold add. destruct (in_dec string_dec n l) as [H|H]; cbn [In]; split; intuition (subst; auto). Qed.
Lemma named_add n l {V V'} (m : key -> option V) (m' : key -> option V') : valid_name n -> named l m ->
  (forall k, m' k <> None <-> m k <> None \/ k = res_key st n) -> named (add n l) m'.
Proof.
  intros V0 (N & F & H) E. split; [|split].
  - unfold add. destruct (in_dec string_dec n l); [exact N|constructor; auto].
  - unfold add. destruct (in_dec string_dec n l); [exact F|constructor; auto].
  - intros k. rewrite E, H. split.
    + intros [(x & A & B)| ->]; [exists x|exists n]; rewrite add_in; auto.
    + intros (x & A & ->). apply add_in in A as [->|A]; [auto|left; eauto].
Qed.
Lemma named_in l {V} (m : key -> option V) n : valid_name n -> named l m -> In n l <-> m (res_key st n) <> None.
Proof.
  intros V0 (N & F & H). rewrite H. split; [eauto|]. intros (x & A & B). rewrite Forall_forall in F.
  rewrite (res_key_inj st n x V0 (F _ A) B). exact A.
Qed.
Lemma named_same l {V V'} (m : key -> option V) (m' : key -> option V') : (forall k, m' k <> None <-> m k <> None) -> named l m -> named l m'.
Proof. intros E (N & F & H). split; [exact N|]. split; [exact F|]. intros k. rewrite E. apply H. Qed.

Lemma calls_tally l : forall S R w w', Forall (fun c => valid_name (call_name c)) l ->
  named S (w_streams w id) -> named R (w_resources w id) -> (forall k, w_resources w id k <> None -> w_streams w id k <> None) ->
  run_calls b e st l w = (Ret tt, w') ->
  named (fst (tally l S R)) (w_streams w' id) /\ named (snd (tally l S R)) (w_resources w' id).
Proof.
  induction l as [|c l IH]; intros S R w w' V NS NR F Run; [injection Run as <-; auto|].
  apply Forall_cons_iff in V as [Vc V]. destruct c as [n schema data|n schema|n]; cbn [run_calls tally call_name] in *; unfold mbind in Run.
  - destruct (write b e st n schema data w) as [[r| | |] w1] eqn:E; try discriminate Run.
    destruct (mem_write _ _ _ _ _ _ E) as (R1 & S1). eapply (IH _ _ w1); [exact V| | | |exact Run].
    + set (m1 := kupd (res_key st n) (Some (([] : list Z), 0)) (w_streams w id)).
      assert (M1 : forall k, m1 k <> None <-> w_streams w id k <> None \/ k = res_key st n).
      { intros k. unfold m1. destruct (key_eq_dec k (res_key st n)) as [->|Nk]; [rewrite kupd_same|rewrite kupd_other by exact Nk].
        - split; [auto|discriminate].
        - split; [auto|]. intros [H|H]; [exact H|contradiction]. }
      apply (named_add _ _ m1); [apply valid_schema, Vc|apply (named_add _ _ (w_streams w id)); auto|].
      intros k. rewrite S1, M1. tauto.
    + rewrite R1. exact NR.
    + intros k H. apply S1. left. apply F. rewrite <- R1. exact H.
  - destruct (read b e st n schema w) as [[r| | |] w1] eqn:E; try discriminate Run.
    assert (G : w_streams w1 = w_streams w /\ named (if in_dec string_dec n S then if in_dec string_dec (schema_name n) S then add (schema_name n) (add n R) else add n R else R) (w_resources w1 id) /\
      forall k, w_resources w1 id k <> None -> w_streams w1 id k <> None).
    { unfold read, mtry, mbind in E. destruct (mem_read_resource n w F) as (r1 & u & E1 & Su & X). fold st in E1. rewrite E1 in E.
      assert (I1 := named_in S _ n Vc NS). assert (I2 := named_in S _ (schema_name n) (valid_schema _ Vc) NS).
      destruct r1 as [d|k1].
      - destruct X as (X1 & X2). destruct (in_dec string_dec n S) as [_|Y]; [|destruct Y; apply I1, X1].
        assert (Fu : forall k, w_resources u id k <> None -> w_streams u id k <> None).
        { intros k H. rewrite Su. apply X2 in H as [H| ->]; auto. }
        assert (Nu : named (add n R) (w_resources u id)) by (eapply named_add; eauto).
        destruct (mem_read_resource (schema_name n) u Fu) as (r2 & u2 & E2 & Su2 & X3). fold st in E2. rewrite E2 in E.
        assert (Fu2 : forall k, w_resources u2 id k <> None -> w_streams u2 id k <> None).
        { intros k H. rewrite Su2. destruct r2 as [d2|k2]; destruct X3 as (X3 & X4); [apply X4 in H as [H| ->]; auto|rewrite X4 in H; auto]. }
        assert (w1 = u2) as -> by (destruct r2; injection E as _ <-; reflexivity).
        split; [congruence|]. split; [|exact Fu2]. rewrite Su in X3. destruct r2 as [d2|k2]; destruct X3 as (X3 & X4).
        + destruct (in_dec string_dec (schema_name n) S) as [_|Y]; [|destruct Y; apply I2, X3]. eapply named_add; [apply valid_schema, Vc|exact Nu|exact X4].
        + destruct (in_dec string_dec (schema_name n) S) as [Y|_]; [apply I2 in Y; contradiction|]. rewrite X4. exact Nu.
      - destruct X as (X1 & X2). destruct (in_dec string_dec n S) as [Y|_]; [apply I1 in Y; contradiction|].
        injection E as _ <-. split; [exact Su|]. rewrite X2, Su. auto. }
    destruct G as (G1 & G2 & G3). eapply (IH _ _ w1); [exact V| |exact G2|exact G3|exact Run]. rewrite G1. exact NS.
  - destruct (exists_ st n w) as [[r| | |] w1] eqn:E; try discriminate Run. cbn in E. injection E as _ <-. eapply IH; eauto.
Qed.
End Mem.
Lemma calls_memory v mm b e base l w0 st w : Forall (fun c => valid_name (call_name c)) l ->
  (let! st := mem_new base in let! _ := run_calls b e st l in mret st) w0 = (Ret st, w) ->
  storage_says v mm w st (mem_text v (List.length (fst (tally l [] []))) (List.length (snd (tally l [] []))) base).
Proof.
  intros V R. unfold mem_new, mbind in R. set (id := w_next w0) in R. set (w1 := set_next _ _) in R.
  destruct (run_calls b e (MemStorage id base) l w1) as [[[]| | |] w2] eqn:E; try discriminate R. injection R as <- <-.
  assert (N0 : forall V (m : key -> option V), (forall k, m k = None) -> named id base [] m).
  { intros X m H. split; [constructor|]. split; [constructor|]. intros k. rewrite H. split; [tauto|intros (n & [] & _)]. }
  destruct (calls_tally b e id base l [] [] w1 w2 V) as (A & B); auto.
  - apply N0. intros k. unfold w1. cbn. rewrite nupd_same. reflexivity.
  - apply N0. intros k. unfold w1. cbn. rewrite nupd_same. reflexivity.
  - intros k H. unfold w1 in H. cbn in H. rewrite nupd_same in H. destruct H. reflexivity.
  - apply named_keys in A, B. rewrite <- (map_length (res_key (MemStorage id base)) (fst _)), <- (map_length (res_key (MemStorage id base)) (snd _)).
    apply says_mem; assumption.
Qed.

(** * The mappings of a file storage *)
Lemma file_read_maps id base n w d w' : read_resource (FileStorage id base) n w = (Ret (Ok d), w') ->
  forall i p m, w_maps w' i p = Some m <-> w_maps w i p = Some m \/ i = id /\ p = res_path (FileStorage id base) n /\ m = sl_len d.
Proof.
  set (st := FileStorage id base). intros R. unfold read_resource, mbind in R. unfold st in R. fold st in R.
  destruct (path_exists (res_key st n) w) as [o1 w1] eqn:E1. destruct (path_exists_names _ _ _ _ E1) as (_ & _ & M1).
  destruct o1 as [[]| | |]; try discriminate R. unfold mmap_read in R. rewrite <- M1.
  destruct (w_maps w1 id (res_path st n)) as [l|] eqn:Em.
  - unfold mapped in R. destruct (l <=? _); [|discriminate R]. injection R as <- <-. intros i p m. cbn [sl_len].
    split; [auto|]. intros [H|(-> & -> & ->)]; [exact H|exact Em].
  - match type of R with syscall ?act _ = _ => destruct (syscall_eq act w1) as [(w2 & -> & E)|(_ & o2 & E & Y)]; rewrite E in R end.
    2:{ destruct Y as [(k & ->)| ->]; discriminate R. }
    set (w2 := set_faults (tl (w_faults w1)) w1) in *. destruct (w_files w2 _) as [c|] eqn:Ef; [|discriminate R].
    destruct (len c =? 0); [discriminate R|]. unfold mapped in R. destruct (len c <=? _); [|discriminate R]. injection R as <- <-.
    intros i p m. cbn [w_maps set_maps w2 set_faults sl_len]. destruct (Nat.eq_dec i id) as [->|Ni]; [rewrite nupd_same|rewrite nupd_other by exact Ni].
    + unfold supd. destruct (String.eqb_spec p (res_path st n)) as [->|Np].
      * rewrite Em. split; [intros [= <-]; auto|]. intros [H|(_ & _ & ->)]; [discriminate H|reflexivity].
      * split; [auto|]. intros [H|(_ & H & _)]; [exact H|contradiction].
    + split; [auto|]. intros [H|(H & _)]; [exact H|contradiction].
Qed.
Lemma finds_stored id base n w c : disk_ok w -> finds (FileStorage id base) w n (Some c) -> stored_ok c.
Proof.
  intros D F. cbn in F. destruct (w_maps w id _) as [l|].
  - destruct F as (c0 & Fc & _ & [= ->]). destruct (D _ _ Fc) as (B & L). split; [apply bytes_ok_firstn, B|]. unfold len in *. rewrite firstn_length. lia.
  - destruct (w_files w _) as [[|x y]|] eqn:E; try discriminate. injection F as ->. exact (D _ _ E).
Qed.
Lemma file_read_says b e id base n expected w sl w' : disk_ok w -> maps_ok w ->
  read b e (FileStorage id base) n expected w = (Ret (Ok sl), w') ->
  forall i p m, w_maps w' i p = Some m <-> w_maps w i p = Some m \/
    i = id /\ (p = res_path (FileStorage id base) n /\ m = sl_len sl + 16 \/ p = res_path (FileStorage id base) (schema_name n) /\ m = len expected).
Proof.
  intros D MO R. unfold read, mtry, mbind in R.
  destruct (read_resource (FileStorage id base) n w) as [[[d|k]| | |] w1] eqn:E1; try discriminate R.
  destruct (read_resource (FileStorage id base) (schema_name n) w1) as [[[sc|k]| | |] w2] eqn:E2; try discriminate R.
  unfold lift in R. injection R as R <-.
  destruct (read_resource_cases _ _ _ _ _ MO E1) as ((T & _ & Ff & _ & _ & MO1 & _) & (X & _)). destruct (X d eq_refl) as (c & -> & Fc).
  destruct (read_resource_cases _ _ _ _ _ (MO1 MO) E2) as (_ & (X2 & _)). destruct (X2 sc eq_refl) as (c2 & -> & Fc2).
  assert (M1 := file_read_maps _ _ _ _ _ _ E1). assert (M2 := file_read_maps _ _ _ _ _ _ E2).
  destruct (check_resource_cases b e n expected c c2 (finds_stored _ _ _ _ _ D Fc)) as [(r & Ec & Vd & Sl)|(_ & _ & _ & Ec)]; rewrite Ec in R; [|discriminate R].
  injection R as ->. destruct (Sl _ eq_refl) as (So & _). cbn [seen] in Vd. inversion Vd as [x pad Hc Hp _ Hs| | |]; subst.
  intros i p m. rewrite M2, M1. cbn [sl_len whole]. assert (len (framed (sl_bytes sl) pad) = sl_len sl + 16) as ->.
  { unfold framed. rewrite !len_app, Hp. replace (len (le_bytes 8 (len (sl_bytes sl)))) with 8 by (unfold len; rewrite le_bytes_length; reflexivity).
    rewrite (len_sl_bytes _ So). lia. }
  tauto.
Qed.

(** * Different texts *)
Lemma str_app x y : str (x +++ y) = str x ++ str y.
Proof. induction x as [|c x IH]; cbn; [reflexivity|]. rewrite IH. reflexivity. Qed.
Lemma str_inj x : forall y, str x = str y -> x = y.
Proof.
  induction x as [|c x IH]; intros [|d y] H; cbn in H; try discriminate; [reflexivity|]. injection H as H1 H2.
  f_equal; [|auto]. apply N2Z.inj in H1. rewrite <- (ascii_N_embedding c), <- (ascii_N_embedding d), H1. reflexivity.
Qed.
Lemma str_word s : word s -> ~ In 44 (str s) /\ ~ In 32 (str s).
Proof.
  intros [_ F]. induction s as [|c s IH]; cbn in *; [tauto|]. inversion F as [|? ? Hc F']; subst. destruct (IH F') as (A & B).
  split; (intros [H|H]; [|tauto]); revert Hc H; clear; destruct c as [[] [] [] [] [] [] [] []]; vm_compute; congruence.
Qed.
Lemma upto (c : Z) x : forall y k k', ~ In c x -> ~ In c y -> x ++ c :: k = y ++ c :: k' -> x = y /\ k = k'.
Proof.
  induction x as [|a x IH]; intros [|b y] k k' Nx Ny H; cbn in *.
  - injection H as ->. auto.
  - injection H as -> H. destruct Ny. auto.
  - injection H as <- H. destruct Nx. auto.
  - injection H as <- H. destruct (IH y k k') as (-> & ->); auto.
Qed.
Lemma mem_text_inj v s r base s' r' base' : chars (str base) -> chars (str base') ->
  mem_text v s r base = mem_text v s' r' base' -> s = s' /\ r = r' /\ base = base'.
Proof.
  intros C C' H. unfold mem_text in H. apply app_inv_head in H.
  set (z := str ", num_resources: ") in H. set (q := str " }, path: ") in H.
  change z with (44 :: tl z) in H. change q with (32 :: tl q) in H. rewrite <- !app_comm_cons in H.
  apply upto in H as (H1 & H); [|apply str_word, dec_word..]. apply app_inv_head in H.
  apply upto in H as (H2 & H); [|apply str_word, dec_word..]. apply app_inv_head in H.
  apply quoted_inj in H as (H3 & _); [|exact C|exact C']. apply str_inj, dec_inj in H1, H2. apply str_inj in H3. split; [lia|]. split; [lia|exact H3].
Qed.
Lemma str_chars s : chars (str s).
Proof. induction s as [|c s IH]; cbn; constructor; [|exact IH]. assert (X := N_ascii_bounded c). lia. Qed.

Lemma read_listed st n w o w' i : read_resource st n w = (o, w') -> listed_map (w_maps w i) -> listed_map (w_maps w' i).
Proof.
  intros R T. destruct st as [id base|id base].
  - cbn in R. destruct (w_resources w id _); [injection R as <- <-; exact T|]. destruct (w_streams w id _) as [[c p]|]; injection R as <- <-; exact T.
  - unfold read_resource, mbind in R. destruct (path_exists (res_key (FileStorage id base) n) w) as [o1 w1] eqn:E1.
    destruct (path_exists_names _ _ _ _ E1) as (_ & _ & M1). rewrite <- M1 in T. destruct o1 as [x| | |]; try (injection R as <- <-; exact T).
    destruct x; [|injection R as <- <-; exact T]. unfold mmap_read in R. destruct (w_maps w1 id _) as [l|] eqn:Em; [injection R as <- <-; exact T|].
    match type of R with syscall ?act _ = _ => destruct (syscall_eq act w1) as [(w2 & -> & E)|(_ & o2 & E & _)]; rewrite E in R end.
    2:{ injection R as <- <-. exact T. }
    set (w2 := set_faults (tl (w_faults w1)) w1) in *. destruct (w_files w2 _) as [c|]; [|injection R as <- <-; exact T].
    destruct (len c =? 0); injection R as <- <-; [exact T|]. cbn [w_maps set_maps w2 set_faults].
    destruct (Nat.eq_dec i id) as [->|Ni]; [rewrite nupd_same|rewrite nupd_other by exact Ni; exact T]. apply listed_supd; auto.
Qed.
Lemma file_read_entries b e id base n expected w sl w' maps : disk_ok w -> maps_ok w -> entries_are maps (w_maps w id) ->
  read b e (FileStorage id base) n expected w = (Ret (Ok sl), w') ->
  exists maps', entries_are maps' (w_maps w' id) /\ forall x, In x maps' <-> In x maps \/
    x = (res_path (FileStorage id base) n, sl_len sl + 16) \/ x = (res_path (FileStorage id base) (schema_name n), len expected).
Proof.
  intros D MO L R. assert (X := file_read_says b e id base n expected w sl w' D MO R id).
  assert (listed_map (w_maps w' id)) as (maps' & L').
  { unfold read, mtry, mbind in R. destruct (read_resource (FileStorage id base) n w) as [[[d|k]| | |] w1] eqn:E1; try discriminate R.
    destruct (read_resource (FileStorage id base) (schema_name n) w1) as [[[sc|k]| | |] w2] eqn:E2; try discriminate R.
    injection R as _ <-. eapply read_listed; [exact E2|]. eapply read_listed; [exact E1|]. exists maps. exact L. }
  exists maps'. split; [exact L'|]. destruct L as (_ & L). destruct L' as (_ & L'). intros [p m]. rewrite L', L, X.
  split.
  - intros [H|(_ & [(-> & ->)|(-> & ->)])]; auto.
  - intros [H|[H|H]]; [auto|injection H as -> ->; auto..].
Qed.
Lemma file_write_names b e id base n schema data w o w' : write b e (FileStorage id base) n schema data w = (o, w') -> same_names w w'.
Proof.
  intros R. unfold write, mtry, mbind in R. destruct (create_output_stream (FileStorage id base) n w) as [o1 w1] eqn:E1.
  assert (N1 := create_file_names _ _ _ _ _ _ E1). destruct o1 as [[s|k]| | |]; try (injection R as <- <-; exact N1).
  destruct (write_to_stream b e data s w1) as [o2 w2] eqn:E2. assert (N2 : same_names w w2).
  { eapply same_names_trans; [exact N1|]. revert E2. unfold write_to_stream, stry, write_size, write_padding, mbind, lift.
    destruct (write_bytes b e U64 (len data) (zeros 8) 0 64) as [x| | |]; try (intros [= <- <-]; apply same_names_refl).
    destruct (write_all s x w1) as [[[[y|k] s1]| | |] u1] eqn:F1; apply write_all_names in F1; try (intros [= <- <-]; exact F1).
    destruct (write_all s1 data u1) as [[[[y2|k2] s2]| | |] u2] eqn:F2; apply write_all_names in F2; try (intros [= <- <-]; eauto using same_names_trans).
    destruct (write_all s2 (zeros PADDING_SIZE) u2) as [[[[y3|k3] s3]| | |] u3] eqn:F3; apply write_all_names in F3; intros [= <- <-]; eauto using same_names_trans. }
  destruct o2 as [[y|k]| | |]; try (injection R as <- <-; exact N2).
  destruct (create_output_stream (FileStorage id base) (schema_name n) w2) as [o3 w3] eqn:E3.
  assert (N3 := same_names_trans _ _ _ N2 (create_file_names _ _ _ _ _ _ E3)). destruct o3 as [[s3|k]| | |]; try (injection R as <- <-; exact N3).
  unfold write_schema, stry, mbind in R. destruct (write_all s3 schema w3) as [[[[y4|k4] s4]| | |] w4] eqn:E4; apply write_all_names in E4;
    injection R as <- <-; eauto using same_names_trans.
Qed.
Lemma same_says v mm w w' st t : same_names w w' -> storage_says v mm w st t <-> storage_says v mm w' st t.
Proof.
  intros (A & B & C). split; intros H; destruct H as [id base ks kr S R|id base l L].
  - apply says_mem; [|rewrite B; exact R]. eapply keys_same; [|exact S]. intros k. symmetry. apply A.
  - apply says_file. rewrite C. exact L.
  - apply says_mem; [|rewrite <- B; exact R]. eapply keys_same; [|exact S]. intros k. apply A.
  - apply says_file. rewrite <- C. exact L.
Qed.
