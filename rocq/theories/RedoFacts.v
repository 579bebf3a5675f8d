(** Facts about repeated attempts (C103). *)
From Verif Require Import Base BaseFacts Codec Storage PathFacts StorageSpec StorageFacts StorageMore StorageUse DirFacts RedoSpec.
Local Open Scope list_scope.
Local Open Scope Z_scope.

Lemma file_of_any id base name : res_key (FileStorage id base) name = file_of base name.
Proof. reflexivity. Qed.
Lemma is_dir_eq w w' k : w_dirs w' = w_dirs w -> is_dir k w' = is_dir k w.
Proof. intros E. unfold is_dir. rewrite E. reflexivity. Qed.

(** What attempts leave alone. *)
Definition kept (base name : string) (w w' : world) : Prop :=
  (forall k, k <> file_of base name -> k <> file_of base (schema_name name) -> w_files w' k = w_files w k) /\
  (forall x, is_dir x w = true -> is_dir x w' = true) /\
  (forall x, is_dir x w' = true -> is_dir x w = true \/ is_prefix_of x (key_of base) = true) /\
  (closed (key_of base) w -> closed (key_of base) w').
Lemma kept_disk base name w w' : same_disk w w' -> kept base name w w'.
Proof. intros (F & D). unfold kept, closed, is_dir. rewrite F, D. auto 6. Qed.
Lemma kept_trans base name w1 w2 w3 : kept base name w1 w2 -> kept base name w2 w3 -> kept base name w1 w3.
Proof.
  intros (A1 & A3 & A4 & A5) (B1 & B3 & B4 & B5). repeat split; auto.
  - intros k N1 N2. rewrite B1, A1; auto.
  - intros x H. destruct (B4 x H) as [H'|]; auto.
Qed.

Lemma write_keeps b e id base name schema data fs w o w' :
  write b e (FileStorage id base) name schema data (set_faults fs w) = (o, w') -> kept base name w w'.
Proof.
  intros R. destruct (write_touches _ _ _ _ _ _ _ _ _ R) as ((_ & T & _ & _ & G) & _).
  assert (W := within_write (key_of base) b e (FileStorage id base) eq_refl eq_refl name schema data (set_faults fs w)).
  rewrite R in W. destruct W as (D & C). cbn [snd] in *. change (w_dirs (set_faults fs w)) with (w_dirs w) in *. change (w_files (set_faults fs w)) with (w_files w) in *.
  split; [|split; [|split; [|exact C]]].
  - intros k N1 N2. apply T. intros [E|E]; injection E as E; auto.
  - intros x. unfold is_dir. destruct (w_dirs w x) eqn:E; [rewrite (G x E); auto|]. cbn. intros ->. apply orb_true_r.
  - intros x. unfold is_dir. destruct (w_dirs w' x) eqn:E; [destruct (D x E) as [-> |]; auto|]. cbn. intros ->. left. apply orb_true_r.
Qed.
Lemma tried_keeps base name w w' : tried base name w w' -> kept base name w w'.
Proof.
  induction 1 as [w1 H|w1 fs b e id schema data o w2 w3 T IH R H]; [apply kept_disk; exact H|].
  eapply kept_trans; [exact IH|]. eapply kept_trans; [eapply write_keeps; exact R|apply kept_disk; exact H].
Qed.
Lemma create_keeps b e id base aname schema fs w o w' :
  create_archive b e (FileStorage id base) aname schema (set_faults fs w) = (o, w') -> kept base (signature_name aname) w w'.
Proof.
  intros R. unfold create_archive, mbind in R. cbn [exists_] in R.
  destruct (path_exists _ (set_faults fs w)) as [o1 w1] eqn:E. apply path_exists_cases in E. destruct E as (_ & F & D & X & _).
  assert (K : same_disk w w1) by (split; [exact F|exact D]). destruct X as [(x & ->)|(-> & _)]; [|injection R as <- <-; apply kept_disk; exact K].
  destruct x; [injection R as <- <-; apply kept_disk; exact K|]. unfold mtry, mbind in R.
  destruct (write b e (FileStorage id base) (signature_name aname) schema [] w1) as [o2 w2] eqn:W.
  assert (w2 = w') as -> by (destruct o2 as [[[]|k]| | |]; injection R as <- <-; reflexivity).
  eapply kept_trans; [apply kept_disk; exact K|]. apply (write_keeps b e id base _ schema [] (w_faults w1) w1 o2). destruct w1. exact W.
Qed.
Lemma created_keeps base aname w w' : tried_create base aname w w' -> kept base (signature_name aname) w w'.
Proof.
  induction 1 as [w1 H|w1 fs b e id schema o w2 w3 T IH R H]; [apply kept_disk; exact H|].
  eapply kept_trans; [exact IH|]. eapply kept_trans; [eapply create_keeps; exact R|apply kept_disk; exact H].
Qed.

Lemma not_above base name n : valid_name name -> (fst (key_of base), firstn n (snd (key_of base))) <> file_of base name.
Proof.
  intros V E. unfold file_of in E. rewrite res_key_valid in E by exact V. cbn [st_base] in E. apply (f_equal snd) in E. cbn [snd] in E.
  apply (f_equal (@List.length string)) in E. rewrite app_length, firstn_length in E. cbn [List.length] in E. lia.
Qed.
Lemma not_prefix base name : valid_name name -> is_prefix_of (file_of base name) (key_of base) = false.
Proof.
  intros V. apply is_prefix_longer. unfold file_of. rewrite res_key_valid by exact V. cbn [snd st_base]. rewrite app_length. cbn. lia.
Qed.
Lemma free_kept base name w w' : valid_name name -> kept base name w w' -> free_place base name w -> free_place base name w'.
Proof.
  intros V (F & G & D & _) (A & B & C). assert (Vs := valid_schema name V).
  assert (X : forall n, valid_name n -> is_dir (file_of base n) w = false -> is_dir (file_of base n) w' = false).
  { intros n Vn H. destruct (is_dir (file_of base n) w') eqn:E; [|reflexivity].
    destruct (D _ E) as [H'|P]; [congruence|]. rewrite not_prefix in P by exact Vn. discriminate. }
  split; [auto|]. split; [auto|]. destruct C as [C|C]; [left; auto|right]. intros n. rewrite F by (apply not_above; auto). apply C.
Qed.
Lemma free_ready id base name w : valid_name name -> free_place base name w ->
  ready (FileStorage id base) name w /\ ready (FileStorage id base) (schema_name name) w.
Proof. intros V (A & B & C). split; (split; [assumption|]); left; split; auto using valid_schema. Qed.

(** Writing without failures. *)
Lemma redo_write b e id base name schema data w : valid_name name -> w_faults w = [] -> free_place base name w ->
  closed (key_of base) w ->
  exists w', write b e (FileStorage id base) name schema data w = (Ret (Ok tt), w') /\ resource_added base name schema data w w'.
Proof.
  intros V Hf P Cl. destruct (free_ready id base name w V P) as (R1 & R2).
  destruct (write_progresses b e (FileStorage id base) name schema data w Hf I I R1 R2) as (w' & W). exists w'. split; [exact W|].
  assert (W' := W). apply write_cases in W'; [|exact I|exact I]. destruct W' as (_ & [(_ & B1 & B2)|(_ & F & _)]).
  2:{ destruct F as [(k & F)|F]; discriminate. }
  assert (K : kept base name w w').
  { apply (write_keeps b e id base name schema data [] w (Ret (Ok tt))). rewrite <- Hf. destruct w; exact W. }
  destruct K as (K1 & K2 & K3 & K4). split; [exact B1|]. split; [exact B2|]. split; [exact K1|].
  assert (D : is_dir (key_of base) w' = true).
  { assert (W1 := W). unfold write, mtry, mbind in W1.
    destruct (create_output_stream (FileStorage id base) name w) as [o1 w1] eqn:E1.
    assert (E2 := create_output_stream_cases _ _ _ _ _ E1). destruct E2 as [(s & -> & _ & _ & _ & X)|(_ & _ & _ & [(k & ->)| ->] & _)]; [|discriminate W1|discriminate W1].
    destruct (X Hf name R1) as (_ & D). specialize (D eq_refl). cbn [st_base] in D.
    destruct (write_to_stream b e data s w1) as [o2 w2] eqn:E3. destruct (write_to_stream_wstep _ _ _ _ _ _ _ E3) as (_ & D2).
    destruct o2 as [[[]|k]| | |]; try discriminate W1.
    destruct (create_output_stream (FileStorage id base) (schema_name name) w2) as [o3 w3] eqn:E4.
    destruct (create_step _ _ _ _ _ E4) as (((_ & _ & _ & _ & G) & _) & _).
    destruct o3 as [[s3|k]| | |]; try discriminate W1. destruct (write_schema_wstep _ _ _ _ _ W1) as (_ & D4).
    unfold is_dir in *. rewrite D4. destruct (w_dirs w2 (key_of base)) eqn:E5; [rewrite (G _ E5); reflexivity|].
    rewrite <- D2, E5, orb_false_l in D. rewrite D. apply orb_true_r. }
  intros x. destruct (is_dir x w') eqn:E.
  - destruct (K3 x E) as [-> | ->]; auto using orb_true_r.
  - destruct (is_dir x w) eqn:E1; [rewrite (K2 x E1) in E; discriminate|].
    destruct (is_prefix_of x (key_of base)) eqn:E2; [|reflexivity]. rewrite (K4 Cl D x E2) in E. discriminate.
Qed.
Lemma added_kept base name schema data w w1 w2 : kept base name w w1 -> tree_ok w ->
  resource_added base name schema data w1 w2 -> resource_added base name schema data w w2.
Proof.
  intros (K1 & K2 & K3 & _) T (A & B & C & D). split; [exact A|]. split; [exact B|]. split; [intros k N1 N2; rewrite C, K1; auto|].
  intros x. rewrite D. destruct (is_dir x w1) eqn:E.
  - destruct (K3 x E) as [-> | ->]; auto using orb_true_r.
  - destruct (is_dir x w) eqn:E1; [rewrite (K2 x E1) in E; discriminate|reflexivity].
Qed.
Lemma redo_added b e id base name schema data w w1 : valid_name name -> tree_ok w -> free_place base name w -> kept base name w w1 ->
  w_faults w1 = [] ->
  exists w2, write b e (FileStorage id base) name schema data w1 = (Ret (Ok tt), w2) /\ resource_added base name schema data w w2.
Proof.
  intros V T P K Hf. destruct (redo_write b e id base name schema data w1) as (w2 & W & A); auto.
  - eapply free_kept; eauto.
  - apply K. intros D x X. exact (T _ _ D X).
  - exists w2. split; [exact W|]. eapply added_kept; eauto.
Qed.

(** Something in the way. *)
Lemma create_blocked id base n w o w' : valid_name n -> ~ base_ready base w ->
  create_output_stream (FileStorage id base) n w = (o, w') -> (forall s, o <> Ret (Ok s)) /\ same_disk w w'.
Proof.
  intros V N R. assert (Nd : is_dir (key_of base) w = false).
  { destruct (is_dir (key_of base) w) eqn:E; [|reflexivity]. destruct N. left. exact E. }
  assert (Fp : forall u, w_files u = w_files w -> file_on_path (key_of base) u = true).
  { intros u Eu. destruct (file_on_path (key_of base) u) eqn:E; [reflexivity|]. destruct N. right. intros m.
    destruct (w_files w (fst (key_of base), firstn m (snd (key_of base)))) as [c|] eqn:E1; [|reflexivity].
    assert (X : file_on_path (key_of base) u = true); [|congruence]. unfold file_on_path. apply existsb_exists.
    exists (Nat.min m (List.length (snd (key_of base)))). split; [apply in_seq; lia|]. rewrite <- firstn_firstn, firstn_all, Eu, E1. reflexivity. }
  unfold create_output_stream, mtry, mbind in R.
  destruct (path_exists (key_of base) w) as [o1 w1] eqn:E1. apply path_exists_cases in E1. destruct E1 as (_ & F1 & D1 & X1 & _).
  destruct X1 as [(x & ->)|(-> & _)]; [|injection R as <- <-; split; [discriminate|split; auto]].
  assert (Fc : forall u o w', w_dirs u = w_dirs w -> file_create (res_key (FileStorage id base) n) u = (o, w') ->
    (forall s, o <> Ret (Ok s)) /\ same_disk u w').
  { intros u o0 w0 Du Rc. apply file_create_cases in Rc. destruct Rc as (v & _ & Fv & Dv & [(_ & _ & Pd & _)|(Fo & -> & _)]).
    - rewrite parent_res_key in Pd by exact V. cbn [st_base] in Pd. rewrite (is_dir_eq w u _ Du) in Pd. congruence.
    - split; [|split; auto]. intros s. destruct Fo as [(k & ->)| ->]; discriminate. }
  destruct x.
  - cbn [mret] in R. destruct (Fc w1 o w' D1 R) as (A & F & D). split; [exact A|]. split; congruence.
  - destruct (create_dir_all (key_of base) w1) as [o2 w2] eqn:E2. unfold create_dir_all in E2.
    destruct (next_fault w1) as [f w3] eqn:E3. destruct (next_fault_cases _ _ _ E3) as [-> _].
    rewrite (Fp (set_faults (tl (w_faults w1)) w1) F1) in E2.
    destruct f; injection E2 as <- <-; injection R as <- <-; (split; [discriminate|split; auto]).
Qed.
Lemma write_blocked b e id base name schema data fs w o w' : valid_name name -> ~ base_ready base w ->
  write b e (FileStorage id base) name schema data (set_faults fs w) = (o, w') -> o <> Ret (Ok tt) /\ same_disk w w'.
Proof.
  intros V N R. unfold write, mtry, mbind in R. destruct (create_output_stream (FileStorage id base) name (set_faults fs w)) as [o1 w1] eqn:E.
  destruct (create_blocked id base name (set_faults fs w) o1 w1 V N E) as (A & K).
  destruct o1 as [[s|k]| | |]; try (injection R as <- <-; split; [discriminate|exact K]). destruct (A s). reflexivity.
Qed.
Lemma write_dir_blocked b e id base name schema data fs w o w' :
  is_dir (file_of base name) w = true \/ is_dir (file_of base (schema_name name)) w = true ->
  write b e (FileStorage id base) name schema data (set_faults fs w) = (o, w') -> o <> Ret (Ok tt).
Proof.
  intros H R. assert (Cr : forall n u o w', create_output_stream (FileStorage id base) n u = (o, w') ->
    is_dir (file_of base n) u = true -> forall s, o <> Ret (Ok s)).
  { clear. intros n u o w' R H s. unfold create_output_stream, mtry, mbind in R.
    destruct (path_exists (key_of base) u) as [o1 w1] eqn:E1. apply path_exists_cases in E1. destruct E1 as (_ & F1 & D1 & X1 & _).
    destruct X1 as [(x & ->)|(-> & _)]; [|injection R as <- <-; discriminate].
    destruct ((if x then mret (Ok tt) else create_dir_all (key_of base)) w1) as [o2 w2] eqn:E2.
    assert (G : is_dir (file_of base n) w2 = true).
    { rewrite <- (is_dir_eq u w1 _ D1) in H. destruct x; [injection E2 as <- <-; exact H|]. apply create_dir_all_cases in E2.
      destruct E2 as (((_ & _ & _ & _ & G) & _) & _). unfold is_dir in *. destruct (w_dirs w1 (file_of base n)) eqn:E; [rewrite (G _ E); reflexivity|].
      rewrite orb_false_l in H. rewrite H. apply orb_true_r. }
    destruct o2 as [[[]|k]| | |]; try (injection R as <- <-; discriminate). apply file_create_cases in R.
    destruct R as (v & _ & _ & _ & [(_ & Nd & _)|([(k & ->)| ->] & _)]); [|discriminate|discriminate].
    rewrite file_of_any in Nd. congruence. }
  unfold write, mtry, mbind in R. destruct (create_output_stream (FileStorage id base) name (set_faults fs w)) as [o1 w1] eqn:E.
  destruct o1 as [[s|k]| | |]; try (injection R as <- <-; discriminate).
  destruct H as [H|H]; [destruct (Cr _ _ _ _ E H s); reflexivity|].
  destruct (create_step _ _ _ _ _ E) as (((_ & _ & _ & _ & G) & _) & _).
  destruct (write_to_stream b e data s w1) as [o2 w2] eqn:E3. destruct (write_to_stream_wstep _ _ _ _ _ _ _ E3) as (_ & D2).
  destruct o2 as [[[]|k]| | |]; try (injection R as <- <-; discriminate).
  destruct (create_output_stream (FileStorage id base) (schema_name name) w2) as [o3 w3] eqn:E4.
  assert (H2 : is_dir (file_of base (schema_name name)) w2 = true).
  { rewrite (is_dir_eq w1 w2 _ D2). unfold is_dir in *. destruct (w_dirs w (file_of base (schema_name name))) eqn:X; [rewrite (G _ X); reflexivity|].
    change (w_dirs (set_faults fs w)) with (w_dirs w) in *. rewrite orb_false_l in H. rewrite H. apply orb_true_r. }
  destruct o3 as [[s3|k]| | |]; try (injection R as <- <-; discriminate). destruct (Cr _ _ _ _ E4 H2 s3). reflexivity.
Qed.
Lemma tried_blocked base name w w1 : valid_name name -> ~ base_ready base w -> tried base name w w1 -> same_disk w w1.
Proof.
  intros V N T. induction T as [w1 H|w1 fs b e id schema data o w2 w3 T IH R H]; [exact H|].
  destruct IH as (F1 & D1). destruct (write_blocked b e id base name schema data fs w1 o w2 V) with (2 := R) as (_ & F2 & D2).
  { unfold base_ready, is_dir in *. rewrite F1, D1. exact N. }
  destruct H as (F3 & D3). split; congruence.
Qed.
Lemma redo_blocked b e id base name schema data fs w w1 o w2 : valid_name name -> tried base name w w1 -> ~ free_place base name w ->
  write b e (FileStorage id base) name schema data (set_faults fs w1) = (o, w2) -> o <> Ret (Ok tt).
Proof.
  intros V T N R. destruct (is_dir (file_of base name) w) eqn:E1; [|destruct (is_dir (file_of base (schema_name name)) w) eqn:E2].
  - eapply write_dir_blocked; [|exact R]. left. apply (proj1 (proj2 (tried_keeps _ _ _ _ T))). exact E1.
  - eapply write_dir_blocked; [|exact R]. right. apply (proj1 (proj2 (tried_keeps _ _ _ _ T))). exact E2.
  - assert (Nb : ~ base_ready base w) by (intros H; apply N; repeat split; auto).
    destruct (tried_blocked base name w w1 V Nb T) as (F & D).
    eapply write_blocked; [exact V| |exact R]. unfold base_ready, is_dir in *. rewrite F, D. exact Nb.
Qed.

(** Archives. *)
Lemma redo_create b e id base aname schema w w1 : valid_name aname -> tree_ok w -> free_place base (signature_name aname) w ->
  tried_create base aname w w1 -> w_faults w1 = [] ->
  match w_files w1 (file_of base (signature_name aname)) with
  | Some _ => create_archive b e (FileStorage id base) aname schema w1 = (Ret (Er (EIo KAlreadyExists (signature_name aname))), w1)
  | None => exists w2, create_archive b e (FileStorage id base) aname schema w1 = (Ret (Ok tt), w2) /\
      resource_added base (signature_name aname) schema [] w w2
  end.
Proof.
  intros V T P Tr Hf. set (n := signature_name aname) in *. assert (Vn : valid_name n) by (apply valid_app; auto).
  assert (K := created_keeps _ _ _ _ Tr). fold n in K. assert (P1 := free_kept _ _ _ _ Vn K P).
  destruct (w_files w1 (file_of base n)) as [c|] eqn:E.
  - apply create_archive_exists; auto. cbn [present]. rewrite file_of_any. unfold on_disk. fold n. rewrite E. reflexivity.
  - destruct (redo_added b e id base n schema [] w w1 Vn T P K Hf) as (w2 & W & A). exists w2. split; [|exact A].
    unfold create_archive, mbind, mtry, mbind. rewrite exists_eq by exact Hf. fold n. cbn [present]. rewrite file_of_any. unfold on_disk. rewrite E.
    destruct P1 as (D & _). unfold is_dir in D. rewrite D, W. reflexivity.
Qed.
