(** Facts for C107. *)
From Verif Require Import Base BaseFacts Codec CodecSpec Structs StructsSpec Views ViewsSpec ViewsFacts Storage PathFacts StorageSpec StorageFacts StorageMore StorageUse DirFacts.
From Verif Require Import Writers WritersSpec ExtVecUse MultiViews MultiSpec MultiVecFacts MultiVecUse MomentFacts MomentLogs MomentUse RedoSpec RedoFacts AgainSpec AgainFacts RerunSpec.
Local Open Scope list_scope.
Local Open Scope Z_scope.

(** * What runs leave alone *)
Lemma kept_spared base name w w' : kept base name w w' -> spared base (vector_files name) w w'.
Proof.
  intros (A & B & C & D). split; [|auto]. intros k N. apply A; intros ->; apply N; eexists; (split; [|reflexivity]); cbn; auto.
Qed.
Lemma spared_incl base ns ns' w w' : incl ns ns' -> spared base ns w w' -> spared base ns' w w'.
Proof. intros I (A & B). split; [|exact B]. intros k N. apply A. intros (n & H & E). apply N. exists n. auto. Qed.
Lemma put_spared b e lim id base r fs w o w' : put b e lim (FileStorage id base) r (set_faults fs w) = (o, w') -> spared base (files_of r) w w'.
Proof.
  destruct r as [n schema data|n schema s sets|n schema size bits ts items]; cbn [put files_of]; unfold mbind; intros R.
  - destruct (write b e (FileStorage id base) n schema data (set_faults fs w)) as [o1 w1] eqn:E. apply write_keeps, kept_spared in E.
    destruct o1; injection R as <- <-; exact E.
  - destruct (ev_session b e lim s (FileStorage id base) n schema (map EGrow sets) (set_faults fs w)) as [o1 w1] eqn:E. apply ev_session_spared in E.
    destruct o1; injection R as <- <-; exact E.
  - destruct (mv_session b e lim size bits ts (FileStorage id base) n schema (map MGrow items) (set_faults fs w)) as [o1 w1] eqn:E. apply mv_session_spared in E.
    destruct o1; injection R as <- <-; exact E.
Qed.
Lemma put_all_spared b e lim id base l : forall fs w o w', put_all b e lim (FileStorage id base) l (set_faults fs w) = (o, w') ->
  spared base (all_files l) w w'.
Proof.
  induction l as [|r l IH]; intros fs w o w' R; cbn [put_all] in R; unfold mbind in R.
  - injection R as <- <-. apply spared_disk. split; reflexivity.
  - destruct (put b e lim (FileStorage id base) r (set_faults fs w)) as [o1 w1] eqn:E. apply put_spared in E.
    assert (S1 : spared base (all_files (r :: l)) w w1).
    { eapply spared_incl; [|exact E]. intros x H. apply in_or_app. auto. }
    destruct o1 as [[|]| | |]; try (injection R as <- <-; exact S1).
    eapply spared_trans; [exact S1|]. eapply spared_incl; [|apply (IH (w_faults w1) w1 o w')].
    + intros x H. apply in_or_app. auto.
    + rewrite <- (same_faults w1 _ eq_refl). exact R.
Qed.
Lemma tried_all_spared base names w w' : tried_all base names w w' -> spared base names w w'.
Proof.
  induction 1 as [w1 H|w1 fs b e lim id l o w2 w3 T IH I R H]; [apply spared_disk; exact H|].
  eapply spared_trans; [exact IH|]. eapply spared_trans; [eapply spared_incl; [exact I|eapply put_all_spared; exact R]|apply spared_disk; exact H].
Qed.

(** * A run without failures *)
Lemma logs_calm {A} (m : M A) w L o w0 o' w' : logs m w L o w0 -> w_faults w = [] -> m w = (o', w') -> w_faults w' = [].
Proof. intros Lg Hf R. apply logs_clean in Lg. rewrite <- (same_faults w [] Hf), R in Lg. injection Lg as _ ->. reflexivity. Qed.
Lemma ev_session_calm b e lim s id base n schema sets w o w' : w_faults w = [] ->
  ev_session b e lim s (FileStorage id base) n schema (map EGrow sets) w = (o, w') -> w_faults w' = [].
Proof.
  intros Hf R. destruct (traced_ev_session b e lim s id base n schema (map EGrow sets) w) as (L & o1 & w0 & Lg & _).
  - clear. induction sets; cbn; auto.
  - apply key_schema.
  - eapply logs_calm; eauto.
Qed.
Lemma mv_session_calm b e lim size bits ts id base n schema items w o w' : valid_name n -> w_faults w = [] ->
  mv_session b e lim size bits ts (FileStorage id base) n schema (map MGrow items) w = (o, w') -> w_faults w' = [].
Proof.
  intros V Hf R. set (st := FileStorage id base) in *.
  destruct (index_cells st n V) as ((X1 & X2) & X3 & X4). unfold cells_of in *.
  assert (C : forall n m, cell_at st n <> cell_at st m -> res_key st n <> res_key st m) by (intros ? ? HH HE; apply HH; exact (f_equal CFile HE)).
  destruct (traced_mv_session b e lim size bits ts id base n schema (map MGrow items) w) as (L & o1 & w0 & Lg & _);
    try (apply key_schema); try (apply C; intuition congruence).
  - clear. induction items; cbn; auto.
  - eapply logs_calm; eauto.
Qed.

Definition cells_in (st : storage) (ns : list string) (c : cell) : Prop := exists n, In n ns /\ c = cell_at st n.
Definition places (base : string) (ns : list string) (w : world) : Prop :=
  (forall n, In n ns -> is_dir (file_of base n) w = false) /\ base_ready base w.
Definition unseen (id : nat) (base : string) (ns : list string) (w : world) : Prop :=
  forall n, In n ns -> w_maps w id (res_path (FileStorage id base) n) = None.

Lemma put_works b e lim id base r w : let st := FileStorage id base in
  valid_name (name_of r) -> resource_ok st r -> places base (files_of r) w -> closed (key_of base) w ->
  w_faults w = [] -> maps_ok w -> unseen id base (files_of r) w ->
  exists w', put b e lim st r w = (Ret true, w') /\ in_place base w' r /\ spared base (files_of r) w w' /\ is_dir (key_of base) w' = true /\
    w_faults w' = [] /\ maps_ok w' /\ touches (cells_in st (files_of r)) w w'.
Proof.
  intros st V K (P & B) Cl Hf MO U. destruct r as [n schema data|n schema s sets|n schema size bits ts items]; cbn [name_of files_of put in_place resource_ok] in *.
  - destruct (redo_write b e id base n schema data w V Hf) as (w' & W & A); [split; [apply P; cbn; auto|split; [apply P; cbn; auto|exact B]]|exact Cl|].
    exists w'. assert (W' := W). apply write_cases in W'; [|exact I|exact I]. destruct W' as ((T & C & Ca) & _).
    unfold mbind. fold st in W. rewrite W. split; [reflexivity|]. destruct A as (A1 & A2 & A3 & A4). split; [split; [exact A1|exact A2]|].
    split; [apply kept_spared; apply (write_keeps b e id base n schema data [] w (Ret (Ok tt))); rewrite <- (same_faults w [] Hf); exact W|].
    split. { rewrite A4. apply orb_true_iff. right. apply is_prefix_of_refl. }
    split; [apply Ca, Hf|]. split; [eapply maps_ok_caches; [exact C|exact MO]|].
    eapply touches_mono; [|exact T]. intros c [->| ->]; eexists; (split; [|reflexivity]); cbn; auto.
  - destruct K as (K1 & K2 & K3 & K4).
    destruct (clean_vector b e lim s id base n schema sets w V) as (sl & w' & Ss & Sl & Rc & Ll & B1 & B2 & Sp & D & MO' & T); auto.
    { split; [apply P; cbn; auto|split; [apply P; cbn; auto|exact B]]. }
    { split; apply U; cbn; auto. }
    exists w'. unfold mbind, st. rewrite Ss. split. { cbn. f_equal. f_equal. clear. induction (List.length sets); cbn; auto. }
    split. { exists (sl_bytes sl). split; [split; [exact B1|exact B2]|]. split; [exact Rc|]. rewrite len_sl_bytes; auto. }
    split; [exact Sp|]. split; [exact D|]. split; [eapply ev_session_calm; eauto|]. split; [exact MO'|].
    eapply touches_mono; [|exact T]. intros c [->| ->]; eexists; (split; [|reflexivity]); cbn; auto.
  - destruct K as (K1 & K2 & K3 & K4 & K5).
    destruct (clean_multi b e lim size bits ts id base n schema items w V) as (v & w' & Ss & Sh & Ln & Bs & Sp & D & MO' & T); auto.
    { split; [apply P; cbn; auto|split; [apply P; cbn; auto|exact B]]. }
    { split; [apply P; cbn; auto|split; [apply P; cbn; auto|exact B]]. }
    { split; split; apply U; cbn; auto. }
    exists w'. unfold mbind, st. rewrite Ss. split. { cbn. f_equal. f_equal. clear. induction (List.length items); cbn; auto. }
    split. { exists v. split; [exact Sh|]. split; split; apply Bs; cbn; auto. }
    split; [exact Sp|]. split; [exact D|]. split; [eapply mv_session_calm; eauto|]. split; [exact MO'|].
    eapply touches_mono; [|exact T]. intros c [[->| ->]|[->| ->]]; eexists; (split; [|reflexivity]); cbn; auto.
Qed.

Lemma files_valid r : valid_name (name_of r) -> Forall valid_name (files_of r).
Proof. destruct r; cbn [name_of files_of]; [apply vector_files_valid|apply vector_files_valid|apply multi_files_valid]. Qed.
Lemma all_files_valid l : Forall (fun r => valid_name (name_of r)) l -> Forall valid_name (all_files l).
Proof. induction 1 as [|r l V H IH]; [constructor|]. apply Forall_app. split; [apply files_valid; exact V|exact IH]. Qed.
Lemma in_place_spared base ns w w' r : spared base ns w w' -> (forall n, In n (files_of r) -> ~ among base ns (file_of base n)) ->
  in_place base w r -> in_place base w' r.
Proof.
  intros (S & _) N. assert (H : forall n schema d, In n (files_of r) -> In (schema_name n) (files_of r) -> holds base n schema d w -> holds base n schema d w').
  { intros n schema d I1 I2 (A & B). split; rewrite S; auto. }
  destruct r as [n schema data|n schema s sets|n schema size bits ts items]; cbn [files_of in_place] in *.
  - apply H; cbn; auto.
  - intros (d & A & B). exists d. split; [apply H; cbn; auto|exact B].
  - intros (v & A & B & C). exists v. split; [exact A|]. split; apply H; cbn; auto.
Qed.
Lemma apart base ns m : Forall valid_name ns -> valid_name m -> ~ In m ns -> ~ among base ns (file_of base m).
Proof.
  intros V Vm N (n & I & E). apply N. rewrite Forall_forall in V. apply res_key_inj in E; auto. congruence.
Qed.
Lemma places_spared base ns ns' w w' : Forall valid_name ns -> Forall valid_name ns' -> ns' <> [] -> spared base ns w w' -> places base ns' w -> places base ns' w'.
Proof.
  intros Vs V Ne Sp (P & B). rewrite Forall_forall in V. assert (V' := Vs). rewrite Forall_forall in Vs. destruct Sp as (F & G & D & _). split.
  - intros m Hm. destruct (is_dir (file_of base m) w') eqn:E; [|reflexivity].
    destruct (D _ E) as [H'|X]; [rewrite P in H' by exact Hm; discriminate|]. rewrite not_prefix in X by auto. discriminate.
  - destruct B as [B|B]; [left; auto|]. right. intros k. rewrite F; [apply B|]. intros (n & I & E). exact (not_above base n k (Vs n I) E).
Qed.
Lemma put_all_works b e lim id base l : let st := FileStorage id base in
  forall w, Forall (fun r => valid_name (name_of r)) l -> NoDup (all_files l) -> Forall (resource_ok st) l ->
  places base (all_files l) w -> closed (key_of base) w -> w_faults w = [] -> maps_ok w -> unseen id base (all_files l) w ->
  exists w', put_all b e lim st l w = (Ret true, w') /\ Forall (in_place base w') l /\ spared base (all_files l) w w' /\
    (l <> [] -> is_dir (key_of base) w' = true).
Proof.
  intros st. induction l as [|r l IH]; intros w V ND K P Cl Hf MO U; cbn [put_all].
  - exists w. split; [reflexivity|]. split; [constructor|]. split; [apply spared_disk; split; reflexivity|congruence].
  - apply Forall_cons_iff in V as (Vr & V). apply Forall_cons_iff in K as (Kr & K).
    assert (Fr := files_valid r Vr). assert (Fl := all_files_valid l V).
    assert (Ap : forall n, In n (files_of r) -> ~ In n (all_files l)).
    { intros n I1 I2. unfold all_files in ND. cbn [map List.concat] in ND. revert ND I1. clear - I2.
      induction (files_of r) as [|x xs IH]; cbn [app In]; [intros _ []|]. intros H. inversion H as [|? ? N H']; subst.
      intros [->|I1]; [apply N, in_or_app; auto|auto]. }
    assert (ND' : NoDup (all_files l)).
    { unfold all_files in *. cbn [map List.concat] in ND. revert ND. clear. induction (files_of r) as [|x xs IH]; cbn [app]; [auto|].
      intros H. inversion H; subst. auto. }
    assert (I1 : incl (files_of r) (all_files (r :: l))) by (intros x H; apply in_or_app; auto).
    assert (I2 : incl (all_files l) (all_files (r :: l))) by (intros x H; apply in_or_app; auto).
    destruct P as (P & B).
    destruct (put_works b e lim id base r w Vr Kr) as (w1 & R1 & Pl & Sp & D & Hf1 & MO1 & T); auto.
    { split; auto. } { intros n H. apply U. auto. }
    assert (P1 : places base (all_files l) w1).
    { split; [|left; exact D]. intros m Hm. rewrite Forall_forall in Fl. destruct (is_dir (file_of base m) w1) eqn:E; [|reflexivity].
      destruct Sp as (_ & _ & Dd & _). destruct (Dd _ E) as [H'|X]; [rewrite P in H' by auto; discriminate|]. rewrite not_prefix in X by auto. discriminate. }
    assert (U1 : unseen id base (all_files l) w1).
    { intros n Hn. destruct T as (_ & _ & Tm & _). rewrite Tm; [apply U; auto|]. intros (m & Hm & E). assert (E' : res_key st n = res_key st m) by exact (f_equal (fun c => match c with CFile k => k | CMem _ k => k end) E).
      rewrite Forall_forall in Fl, Fr. apply (res_key_inj st n m) in E'; auto. subst m. eapply Ap; eauto. }
    destruct (IH w1 V ND' K P1 (proj2 (proj2 (proj2 Sp)) Cl) Hf1 MO1 U1) as (w2 & R2 & Pl2 & Sp2 & _).
    exists w2. unfold mbind. fold st in R1. rewrite R1, R2. split; [reflexivity|].
    split. { constructor; [|exact Pl2]. eapply in_place_spared; [exact Sp2| |exact Pl]. intros n Hn. rewrite Forall_forall in Fr. apply apart; auto. }
    split. { apply (spared_trans base _ w w1 w2); [exact (spared_incl base _ _ w w1 I1 Sp)|exact (spared_incl base _ _ w1 w2 I2 Sp2)]. }
    intros _. exact (proj1 (proj2 Sp2) _ D).
Qed.

Lemma rerun_spared b e lim id base l names w w1 : let st := FileStorage id base in
  l <> [] -> Forall (fun r => valid_name (name_of r)) l -> NoDup (all_files l) -> Forall (resource_ok st) l -> tree_ok w ->
  (forall n, In n (all_files l) -> is_dir (file_of base n) w = false) -> base_ready base w ->
  Forall valid_name names -> spared base names w w1 -> w_faults w1 = [] -> new_object id w1 ->
  exists w2, put_all b e lim st l w1 = (Ret true, w2) /\ Forall (in_place base w2) l /\
    (forall k, ~ among base (names ++ all_files l) k -> w_files w2 k = w_files w k) /\
    (forall k, ~ among base (all_files l) k -> w_files w2 k = w_files w1 k) /\
    forall x, is_dir x w2 = is_dir x w || is_prefix_of x (key_of base).
Proof.
  intros st Ne V ND K T P B Vn Sp Hf (MO & New).
  assert (Fl := all_files_valid l V).
  assert (Cl : closed (key_of base) w1) by (apply Sp; intros D0 x X; exact (T _ _ D0 X)).
  assert (P1 : places base (all_files l) w1).
  { eapply places_spared; [exact Vn|exact Fl| |exact Sp|split; auto]. destruct l as [|[]]; [congruence|discriminate..]. }
  destruct (put_all_works b e lim id base l w1 V ND K P1 Cl Hf MO) as (w2 & R & Pl & Sp2 & D); [intros n _; apply New|].
  exists w2. split; [exact R|]. split; [exact Pl|]. split; [|split; [apply Sp2|]].
  - intros k N. destruct Sp as (S1 & _). destruct Sp2 as (S2 & _). rewrite S2, S1; auto; intros (n & I & E); apply N; exists n; (split; [apply in_or_app; auto|exact E]).
  - eapply dirs_twice; [exact Sp|]. eapply dirs_added; [exact Sp2|exact Cl|apply D, Ne].
Qed.
Lemma rerun b e lim id base l names w w1 : let st := FileStorage id base in
  l <> [] -> Forall (fun r => valid_name (name_of r)) l -> NoDup (all_files l) -> Forall (resource_ok st) l -> tree_ok w ->
  (forall n, In n (all_files l) -> is_dir (file_of base n) w = false) -> base_ready base w ->
  Forall valid_name names -> tried_all base names w w1 -> w_faults w1 = [] -> new_object id w1 ->
  exists w2, put_all b e lim st l w1 = (Ret true, w2) /\ Forall (in_place base w2) l /\
    (forall k, ~ among base (names ++ all_files l) k -> w_files w2 k = w_files w k) /\
    (forall k, ~ among base (all_files l) k -> w_files w2 k = w_files w1 k) /\
    forall x, is_dir x w2 = is_dir x w || is_prefix_of x (key_of base).
Proof. intros st Ne V ND K T P B Vn Tr. apply rerun_spared; auto. exact (tried_all_spared _ _ _ _ Tr). Qed.

(** * Something in the way *)
Lemma put_base b e lim id base r fs w o w' : valid_name (name_of r) -> ~ base_ready base w ->
  put b e lim (FileStorage id base) r (set_faults fs w) = (o, w') -> o <> Ret true /\ same_disk w w'.
Proof.
  destruct r as [n schema data|n schema s sets|n schema size bits ts items]; cbn [put name_of]; unfold mbind; intros V N R.
  - destruct (write b e (FileStorage id base) n schema data (set_faults fs w)) as [o1 w1] eqn:E.
    destruct (write_blocked _ _ _ _ _ _ _ _ _ _ _ V N E) as (A & K).
    destruct o1 as [[[]|k]| | |]; try (injection R as <- <-; split; [discriminate|exact K]). destruct A. reflexivity.
  - destruct (ev_session b e lim s (FileStorage id base) n schema (map EGrow sets) (set_faults fs w)) as [o1 w1] eqn:E.
    destruct (ev_session_base _ _ _ _ _ _ _ _ _ _ _ _ _ V N E) as (A & K).
    destruct o1 as [[x|k]| | |]; try (injection R as <- <-; split; [discriminate|exact K]). destruct A. exists x. reflexivity.
  - destruct (mv_session b e lim size bits ts (FileStorage id base) n schema (map MGrow items) (set_faults fs w)) as [o1 w1] eqn:E.
    destruct (mv_session_base _ _ _ _ _ _ _ _ _ _ _ _ _ _ _ V N E) as (A & K).
    destruct o1 as [[x|k]| | |]; try (injection R as <- <-; split; [discriminate|exact K]). destruct A. exists x. reflexivity.
Qed.
Lemma put_dir b e lim id base r n fs w o w' : valid_name (name_of r) -> In n (files_of r) -> is_dir (file_of base n) w = true ->
  put b e lim (FileStorage id base) r (set_faults fs w) = (o, w') -> o <> Ret true.
Proof.
  assert (S : same_disk w w) by (split; reflexivity).
  destruct r as [m schema data|m schema s sets|m schema size bits ts items]; cbn [put name_of files_of]; unfold mbind; intros V H D R ->.
  - destruct (write b e (FileStorage id base) m schema data (set_faults fs w)) as [o1 w1] eqn:E.
    apply write_dir_blocked in E; [|destruct H as [->|[->|[]]]; auto].
    destruct o1 as [[[]|k]| | |]; try discriminate R. destruct E. reflexivity.
  - destruct (ev_session b e lim s (FileStorage id base) m schema (map EGrow sets) (set_faults fs w)) as [o1 w1] eqn:E.
    assert (A := again_vector_blocked b e lim s id base m schema (map EGrow sets) fs w w o1 w1 V).
    destruct o1 as [[x|k]| | |]; try discriminate R. refine (A _ (vector_not _ _ _ _ S) E x eq_refl).
    intros (A1 & A2 & _). destruct H as [<-|[<-|[]]]; congruence.
  - destruct (mv_session b e lim size bits ts (FileStorage id base) m schema (map MGrow items) (set_faults fs w)) as [o1 w1] eqn:E.
    assert (A := again_multi_blocked b e lim size bits ts id base m schema (map MGrow items) fs w w o1 w1 V).
    destruct o1 as [[x|k]| | |]; try discriminate R. refine (A _ (multi_not _ _ _ _ S) E x eq_refl).
    intros ((A1 & A2 & _) & A3 & A4 & _). destruct H as [<-|[<-|[<-|[<-|[]]]]]; congruence.
Qed.
Lemma put_all_dir b e lim id base l n : forall fs w o w', Forall (fun r => valid_name (name_of r)) l -> In n (all_files l) ->
  is_dir (file_of base n) w = true -> put_all b e lim (FileStorage id base) l (set_faults fs w) = (o, w') -> o <> Ret true.
Proof.
  induction l as [|r l IH]; intros fs w o w' V H D R ->; [destruct H|]. apply Forall_cons_iff in V as (Vr & V).
  cbn [put_all] in R. unfold mbind in R. destruct (put b e lim (FileStorage id base) r (set_faults fs w)) as [o1 w1] eqn:E.
  assert (Sp := put_spared _ _ _ _ _ _ _ _ _ _ E). apply in_app_or in H as [H|H].
  - assert (N := put_dir _ _ _ _ _ _ _ _ _ _ _ Vr H D E). destruct o1 as [[|]| | |]; try discriminate R. congruence.
  - destruct o1 as [[|]| | |]; try discriminate R. rewrite (same_faults w1 _ eq_refl) in R.
    eapply (IH _ w1 _ _ V H); [|exact R|reflexivity]. exact (proj1 (proj2 Sp) _ D).
Qed.
Lemma put_all_base b e lim id base l fs w o w' : Forall (fun r => valid_name (name_of r)) l -> ~ base_ready base w ->
  put_all b e lim (FileStorage id base) l (set_faults fs w) = (o, w') -> (l <> [] -> o <> Ret true) /\ same_disk w w'.
Proof.
  destruct l as [|r l]; intros V N R; cbn [put_all] in R; unfold mbind in R.
  - injection R as <- <-. split; [congruence|split; reflexivity].
  - apply Forall_cons_iff in V as (Vr & V). destruct (put b e lim (FileStorage id base) r (set_faults fs w)) as [o1 w1] eqn:E.
    destruct (put_base _ _ _ _ _ _ _ _ _ _ Vr N E) as (A & K).
    destruct o1 as [[|]| | |]; try (injection R as <- <-; split; [discriminate|exact K]). congruence.
Qed.
Lemma names_in l names : incl (all_files l) names -> Forall valid_name names -> Forall (fun r => valid_name (name_of r)) l.
Proof.
  intros I V. rewrite Forall_forall in *. intros r H. apply V, I. unfold all_files. apply in_concat. exists (files_of r).
  split; [apply in_map; exact H|destruct r; cbn; auto].
Qed.
Lemma tried_all_base base names w w1 : Forall valid_name names -> ~ base_ready base w -> tried_all base names w w1 -> same_disk w w1.
Proof.
  intros V N T. induction T as [w1 H|w1 fs b e lim id l o w2 w3 T IH I R H]; [exact H|].
  destruct (put_all_base _ _ _ _ _ _ _ _ _ _ (names_in l names I V) (base_same _ _ _ IH N) R) as (_ & K). eauto using same_disk_trans.
Qed.
Lemma rerun_blocked b e lim id base l names fs w w1 o w2 : Forall (fun r => valid_name (name_of r)) l -> Forall valid_name names ->
  (exists n, In n (all_files l) /\ is_dir (file_of base n) w = true) \/ l <> [] /\ ~ base_ready base w ->
  tried_all base names w w1 -> put_all b e lim (FileStorage id base) l (set_faults fs w1) = (o, w2) -> o <> Ret true.
Proof.
  intros V Vn [(n & H & D)|(Ne & N)] T R.
  - eapply put_all_dir; [exact V|exact H| |exact R]. exact (proj1 (proj2 (tried_all_spared _ _ _ _ T)) _ D).
  - eapply put_all_base; [exact V| |exact R|exact Ne]. eapply base_same; [|exact N]. eapply tried_all_base; eauto.
Qed.

(** * Reading *)
Lemma stored_data d : stored_ok (resource_bytes d) -> data_ok d.
Proof.
  intros (B & L). unfold resource_bytes in *. rewrite framed_len, len_zeros in L by lia. unfold framed in B.
  apply bytes_ok_app in B as (_ & B). apply bytes_ok_app in B as (B & _). split; [exact B|lia].
Qed.
(** What a storage object finds when it reads a resource that is in place. *)
Definition found (st : storage) (w : world) (n : string) (schema d : list Z) : Prop :=
  data_ok d /\ finds st w n (Some (resource_bytes d)) /\ finds st w (schema_name n) (Some schema).
Lemma holds_found id base n schema d w : disk_ok w -> new_object id w -> schema <> [] -> holds base n schema d w ->
  found (FileStorage id base) w n schema d.
Proof.
  intros Ff (_ & N) Ns (A & B). split; [apply stored_data; eapply Ff; exact A|].
  assert (R := resource_bytes_nonempty d).
  split; cbn [finds]; rewrite N; unfold file_of in *.
  - change (res_key (FileStorage id base) n) with (res_key (FileStorage 0 base) n). rewrite A. destruct (resource_bytes d); [contradiction|reflexivity].
  - change (res_key (FileStorage id base) (schema_name n)) with (res_key (FileStorage 0 base) (schema_name n)). rewrite B.
    destruct schema; [contradiction|reflexivity].
Qed.
Lemma found_reads_all P w w' st n schema d : reads P w w' -> found st w n schema d -> found st w' n schema d.
Proof. intros (_ & _ & _ & _ & _ & _ & F) (D & A & B). split; [exact D|split; apply F; auto]. Qed.
Lemma found_read b e st n schema d w : w_faults w = [] -> maps_ok w -> schema_ok st schema -> found st w n schema d ->
  exists sl w', read b e st n schema w = (Ret (Ok sl), w') /\ sl_bytes sl = d /\ slice_ok sl /\ reads (fun _ => True) w w'.
Proof.
  intros Hf MO Sok (Dok & F1 & F2).
  destruct (read_exact b e st n schema w _ _ Hf MO F1 F2) as (o & w' & E & Rd & X).
  assert (Rd' : reads (fun _ => True) w w') by (destruct Rd as (T & Rd); split; [eapply touches_mono; [|exact T]; auto|exact Rd]).
  destruct (X (resource_bytes_ok d Dok)) as [(r & -> & V & S)|(_ & _ & H & _)].
  - unfold resource_bytes in V. apply verdict_framed in V; [|reflexivity|apply Sok|reflexivity].
    destruct r as [sl|]; [|discriminate]. injection V as V. exists sl, w'. split; [exact E|]. split; [exact V|]. split; [apply (S sl eq_refl)|exact Rd'].
  - exfalso. rewrite resource_header in H by auto. destruct Dok as (_ & D). unfold isize_max in D. lia.
Qed.
Lemma mav_shows_bytes ts size bits v i d l : slice_ok i -> slice_ok d -> sl_bytes i = sl_bytes (ma_index v) -> sl_bytes d = sl_bytes (ma_data v) ->
  mav_shows ts size bits v l -> mav_shows ts size bits (mkMav i d) l.
Proof.
  intros Si Sd Ei Ed ((_ & Sv) & N & F). split; [split; auto|]. unfold offsets in *. cbn [ma_index ma_data]. rewrite Ei. split; [exact N|].
  rewrite <- (len_sl_bytes d Sd), Ed, (len_sl_bytes _ Sv). exact F.
Qed.
(** The resource as found, whatever else the object has read. *)
Definition found_one (st : storage) (w : world) (r : resource) : Prop :=
  match r with
  | Plain n schema data => found st w n schema data
  | Vector n schema s sets => exists d, found st w n schema d /\ records s d = elements s sets /\ len d = Z.of_nat (List.length sets) * s_size s
  | Multi n schema size bits ts items => exists v, mav_shows ts size bits v (buckets ts items) /\
      found st w n schema (sl_bytes (ma_data v)) /\ found st w (index_name n) (index_schema schema) (sl_bytes (ma_index v))
  end.
Lemma found_one_reads P st w w' r : reads P w w' -> found_one st w r -> found_one st w' r.
Proof.
  intros R. destruct r; cbn [found_one]; [apply (found_reads_all P _ _ _ _ _ _ R)| |].
  - intros (d & A & B). exists d. split; [apply (found_reads_all P _ _ _ _ _ _ R A)|exact B].
  - intros (v & A & B & C). exists v. split; [exact A|]. split; apply (found_reads_all P _ _ _ _ _ _ R); assumption.
Qed.
Lemma in_place_found id base r w : disk_ok w -> new_object id w -> readable (FileStorage id base) r -> in_place base w r ->
  found_one (FileStorage id base) w r.
Proof.
  intros Ff N. destruct r; cbn [readable in_place found_one].
  - intros (_ & _ & _ & S). apply holds_found; auto.
  - intros (_ & _ & _ & S) (d & A & B). exists d. split; [apply holds_found; auto|exact B].
  - intros S (v & A & B & C). assert (Si := index_schema_ok _ _ S). destruct S as ((_ & _ & _ & S) & _), Si as (_ & _ & _ & Si).
    exists v. split; [exact A|]. split; apply holds_found; auto.
Qed.
Lemma get_works b e st r w : w_faults w = [] -> maps_ok w -> readable st r -> found_one st w r ->
  exists x w', get b e st r w = (Ret (Some x), w') /\ shown r x /\ reads (fun _ => True) w w'.
Proof.
  intros Hf MO. destruct r as [n schema data|n schema s sets|n schema size bits ts items]; cbn [readable found_one get]; unfold mbind, shown.
  - intros S F. destruct (found_read b e st n schema data w Hf MO S F) as (sl & w' & -> & E & Sl & R). exists [sl], w'. cbn. auto.
  - intros S (d & F & Rc & L). destruct (found_read b e st n schema d w Hf MO S F) as (sl & w' & -> & E & Sl & R). exists [sl], w'.
    split; [reflexivity|]. split; [|exact R]. split; [auto|]. rewrite E. split; [exact Rc|]. rewrite <- (len_sl_bytes sl Sl), E. exact L.
  - intros S (v & Sh & Fd & Fi).
    destruct (found_read b e st (index_name n) _ _ w Hf MO (index_schema_ok _ _ S) Fi) as (i & w1 & -> & Ei & Si & R1).
    assert (R1' := R1). destruct R1' as (_ & Ca & _ & _ & _ & M & _).
    destruct (found_read b e st n schema _ w1 (Ca Hf) (M MO) (proj1 S) (found_reads_all _ _ _ _ _ _ _ R1 Fd)) as (d & w2 & -> & Ed & Sd & R2).
    exists [i; d], w2. split; [reflexivity|]. split; [|eapply reads_trans; eauto]. split; [auto|]. eapply mav_shows_bytes; eauto.
Qed.
Lemma get_all_works b e st l : forall w, w_faults w = [] -> maps_ok w -> Forall (readable st) l -> Forall (found_one st w) l ->
  exists x w', get_all b e st l w = (Ret (Some x), w') /\ Forall2 shown l x.
Proof.
  induction l as [|r l IH]; intros w Hf MO S F; cbn [get_all]; [exists [], w; auto|].
  apply Forall_cons_iff in S as (Sr & S). apply Forall_cons_iff in F as (Fr & F). unfold mbind.
  destruct (get_works b e st r w Hf MO Sr Fr) as (x & w1 & -> & Sh & R). assert (R' := R). destruct R' as (_ & Ca & _ & _ & _ & M & _).
  destruct (IH w1 (Ca Hf) (M MO) S) as (y & w2 & -> & Sy).
  { revert F. apply Forall_impl. intros r'. apply (found_one_reads _ _ _ _ _ R). }
  exists (x :: y), w2. auto.
Qed.
Lemma rerun_read b e id base l w : let st := FileStorage id base in
  Forall (readable st) l -> Forall (in_place base w) l -> disk_ok w -> w_faults w = [] -> new_object id w ->
  exists x w', get_all b e st l w = (Ret (Some x), w') /\ Forall2 shown l x.
Proof.
  intros st S P Ff Hf N. apply get_all_works; [exact Hf|apply N|exact S|]. rewrite Forall_forall in *. intros r H.
  apply in_place_found; auto.
Qed.

(** What an object finds stays as at first while it reads. *)
Definition onward (st : storage) (w w' : world) : Prop := maps_ok w' /\ forall n x, finds st w n x -> finds st w' n x.
Lemma onward_reads P st w w1 w2 : onward st w w1 -> reads P w1 w2 -> onward st w w2.
Proof. intros (M & F) (_ & _ & _ & _ & _ & M' & F'). split; auto. Qed.
Lemma onward_file id base w w' n c : new_object id w -> onward (FileStorage id base) w w' -> finds (FileStorage id base) w' n (Some c) ->
  w_files w (file_of base n) = Some c.
Proof.
  intros (_ & N) (_ & F) H. unfold file_of. change (res_key (FileStorage 0 base) n) with (res_key (FileStorage id base) n).
  set (y := match w_files w (res_key (FileStorage id base) n) with Some [] => None | y => y end).
  assert (Fy : finds (FileStorage id base) w n y) by (cbn [finds]; rewrite N; reflexivity).
  assert (E := finds_fun _ _ _ _ _ (F _ _ Fy) H). unfold y in E. clear Fy y.
  destruct (w_files w (res_key (FileStorage id base) n)) as [[|z c']|]; congruence.
Qed.
Lemma read_stored b e id base n schema w w1 d w2 : let st := FileStorage id base in
  new_object id w -> disk_ok w -> onward st w w1 -> read b e st n schema w1 = (Ret (Ok d), w2) ->
  onward st w w2 /\ exists pad, len pad = 8 /\ w_files w (file_of base n) = Some (framed (sl_bytes d) pad) /\
    w_files w (file_of base (schema_name n)) = Some schema /\ utf8_ok schema = true /\ slice_ok d.
Proof.
  intros st N D O R. assert (MO := proj1 O). split; [eapply onward_reads; [exact O|eapply read_cases; eauto]|].
  destruct (read_ok_sound b e st n schema w1 d w2 MO R) as (c & sc & F1 & F2 & X).
  assert (E1 := onward_file id base w w1 n c N O F1). assert (E2 := onward_file id base w w1 _ sc N O F2).
  assert (Sc := D _ _ E1). destruct (X Sc) as (V & Sl & _).
  destruct (proj1 (verdict_ok_iff _ _ _ _ _ Sc V (sl_bytes d)) eq_refl) as ((pad & -> & L) & U & ->).
  exists pad. auto.
Qed.
Lemma get_stored b e id base r w w1 x w2 : let st := FileStorage id base in
  new_object id w -> disk_ok w -> onward st w w1 -> get b e st r w1 = (Ret (Some x), w2) -> onward st w w2 /\ stored base w r x.
Proof.
  intros st N D O. unfold stored. destruct r as [n schema data|n schema s sets|n schema size bits ts items]; cbn [get parts]; unfold mbind; intros R.
  1,2: destruct (read b e st n schema w1) as [[[d|]| | |] w3] eqn:E; try discriminate R; injection R as <- <-;
    destruct (read_stored b e id base n schema w w1 d w3 N D O E) as (O3 & X); split; [exact O3|constructor; [exact X|constructor]].
  destruct (read b e st (index_name n) (index_schema schema) w1) as [[i| | |] w3] eqn:E; try discriminate R.
  destruct (read b e st n schema w3) as [[d| | |] w4] eqn:E'; try discriminate R.
  destruct i as [i|]; [|discriminate R]. destruct d as [d|]; [|discriminate R]. injection R as <- <-.
  destruct (read_stored b e id base _ _ w w1 i w3 N D O E) as (O3 & X).
  destruct (read_stored b e id base _ _ w w3 d w4 N D O3 E') as (O4 & X').
  split; [exact O4|]. constructor; [exact X|]. constructor; [exact X'|constructor].
Qed.
Lemma get_all_stored b e id base l w : let st := FileStorage id base in new_object id w -> disk_ok w ->
  forall w1 x w2, onward st w w1 -> get_all b e st l w1 = (Ret (Some x), w2) -> Forall2 (stored base w) l x.
Proof.
  intros st N D. induction l as [|r l IH]; intros w1 x w2 O R; cbn [get_all] in R; unfold mbind in R.
  - injection R as <- _. constructor.
  - destruct (get b e st r w1) as [[[y|]| | |] w3] eqn:E; try discriminate R.
    destruct (get_stored b e id base r w w1 y w3 N D O E) as (O3 & X).
    destruct (get_all b e st l w3) as [[[z|]| | |] w4] eqn:E'; try discriminate R. injection R as <- _.
    constructor; [exact X|]. eapply IH; eauto.
Qed.
Lemma rerun_stored b e id base l w x w' : disk_ok w -> new_object id w ->
  get_all b e (FileStorage id base) l w = (Ret (Some x), w') -> Forall2 (stored base w) l x.
Proof. intros D N R. eapply get_all_stored; eauto. split; [apply N|auto]. Qed.
