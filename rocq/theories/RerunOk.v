(** Facts for C107: what a run has done that says it worked. *)
From Verif Require Import Base BaseFacts Codec CodecSpec Structs StructsSpec Views ViewsSpec ViewsFacts Storage PathFacts StorageSpec StorageFacts StorageMore StorageUse DirFacts.
From Verif Require Import Writers WritersSpec ExtVecUse MultiViews MultiSpec MultiVecFacts MultiVecUse MomentFacts MomentLogs MomentUse RedoSpec RedoFacts AgainSpec AgainFacts RerunSpec RerunFacts.
Local Open Scope list_scope.
Local Open Scope Z_scope.

Lemma flags_true l : forallb (fun f : bool => f) l = true -> Forall (eq true) l.
Proof. induction l as [|x l IH]; cbn; [constructor|]. intros H. apply andb_prop in H as (-> & H). constructor; auto. Qed.
Lemma put_success b e lim id base r w w' : let st := FileStorage id base in
  valid_name (name_of r) -> resource_ok st r -> maps_ok w -> unseen id base (files_of r) w -> put b e lim st r w = (Ret true, w') ->
  in_place base w' r /\ maps_ok w' /\ touches (cells_in st (files_of r)) w w'.
Proof.
  intros st V K MO U R. destruct r as [n schema data|n schema s sets|n schema size bits ts items]; cbn [name_of files_of put in_place resource_ok] in *.
  - unfold mbind in R. destruct (write b e st n schema data w) as [o w1] eqn:W. assert (X := W). apply write_cases in X; [|exact I|exact I].
    destruct X as ((T & C & _) & X). destruct o as [[[]|k]| | |]; try discriminate R. injection R as <-.
    destruct X as [(_ & B1 & B2)|(_ & [(k & H)|H] & _)]; try discriminate H.
    split; [split; [exact B1|exact B2]|]. split; [eapply maps_ok_caches; [exact C|exact MO]|].
    eapply touches_mono; [|exact T]. intros c [->| ->]; eexists; (split; [|reflexivity]); cbn; auto.
  - destruct K as (K1 & K2 & K3 & K4). set (ops := map EGrow sets) in *.
    assert (Ops : Forall (ev_op_ok st n s) ops) by (apply Forall_map; exact K3).
    assert (HG : grows ops * s_size s + 16 <= isize_max) by (unfold ops; rewrite grows_map; exact K4).
    assert (F : fresh_name st n w) by (split; apply U; cbn; auto).
    unfold mbind in R. destruct (ev_session b e lim s st n schema ops w) as [o w4] eqn:Ss.
    assert (T : touches (cells_of st n) w w4).
    { eapply (ev_session_touches b e lim s st n schema (cells_of st n) ops w _ w4 K1 K2 MO F Ops HG); [auto| |exact Ss].
      unfold ops. rewrite others_map. intros f []. }
    unfold ev_session, mtry, mbind in Ss.
    destruct (create_external_vector b e st n schema w) as [[[v|k]| | |] w2] eqn:C; try (injection Ss as <- <-; discriminate R).
    destruct (ev_run b e lim s ops v w2) as [[[flags v']| | |] w3] eqn:Rn; try (injection Ss as <- <-; discriminate R).
    cbn [fst snd] in Ss. destruct (ev_close b e v' w3) as [[[sl|k]| | |] w5] eqn:Cl; try (injection Ss as <- <-; discriminate R).
    injection Ss as <- <-. injection R as Fl <-. apply flags_true in Fl.
    destruct (ev_closed_ok b e lim st n schema s ops w v w2 flags v' w3 sl w5 K1 K2 MO F Ops HG C Rn Cl (or_introl Fl))
      as (Lf & Sl & Sm & A & Rc & Ll & El & MO3 & B1 & B2 & F1 & F2).
    assert (Ek := kept_all ops flags Lf Fl). assert (Ea : all_sets ops = sets) by apply all_sets_map. rewrite Ek, Ea in *.
    split; [|split; [exact MO3|]].
    + exists (sl_bytes sl). split; [split; [exact B1|exact B2]|]. split; [exact Rc|]. rewrite len_sl_bytes; auto.
    + eapply touches_mono; [|exact T]. intros c [->| ->]; eexists; (split; [|reflexivity]); cbn; auto.
  - destruct K as (K1 & K2 & K3 & K4 & K5). set (ops := map MGrow items) in *.
    assert (Ops : Forall (mv_op_ok st n ts) ops) by (apply Forall_map; exact K4).
    assert (F : mv_fresh st n w) by (split; split; apply U; cbn; auto).
    unfold mbind in R. destruct (mv_session b e lim size bits ts st n schema ops w) as [o w4] eqn:Ss.
    assert (T : touches (mv_cells st n) w w4).
    { eapply (mv_session_touches b e lim size bits ts st n schema K1 K2 V (mv_cells st n) ops w _ w4 K3 MO F Ops K5); [auto| |exact Ss].
      unfold ops. rewrite mv_others_map. intros f []. }
    unfold mv_session, mtry, mbind in Ss.
    destruct (create_multi_vector b e st n schema w) as [[[v|k]| | |] w2] eqn:C; try (injection Ss as <- <-; discriminate R).
    destruct (mv_run b e lim size bits ts ops v w2) as [[[flags v']| | |] w3] eqn:Rn; try (injection Ss as <- <-; discriminate R).
    cbn [fst snd] in Ss. destruct (mv_close b e lim size bits v' w3) as [[[[iv d]|k]| | |] w5] eqn:Cl; try (injection Ss as <- <-; discriminate R).
    injection Ss as <- <-. injection R as Fl <-. apply flags_true in Fl.
    destruct (mv_closed_ok b e lim size bits ts st n schema K1 K2 V ops w v w2 flags v' w3 iv d w5 K3 MO F Ops K5 C Rn Cl (or_introl Fl))
      as (Lf & MO3 & Sh & Of & Li & S1 & S2 & D1 & D2 & _).
    assert (Ek := mv_kept_all ops flags Lf Fl). assert (Ea : mv_all ops = items) by apply mv_all_map. rewrite Ek, Ea in *.
    split; [|split; [exact MO3|]].
    + exists (mkMav iv d). cbn [ma_data ma_index]. split; [exact Sh|]. destruct S1 as (A1 & A2 & _). destruct S2 as (A3 & A4 & _).
      split; split; assumption.
    + eapply touches_mono; [|exact T]. intros c [[->| ->]|[->| ->]]; eexists; (split; [|reflexivity]); cbn; auto.
Qed.
Lemma put_all_success b e lim id base l : let st := FileStorage id base in
  forall w w', Forall (fun r => valid_name (name_of r)) l -> NoDup (all_files l) -> Forall (resource_ok st) l ->
  maps_ok w -> unseen id base (all_files l) w -> put_all b e lim st l w = (Ret true, w') -> Forall (in_place base w') l.
Proof.
  intros st. induction l as [|r l IH]; intros w w' V ND K MO U R; [constructor|]. cbn [put_all] in R. unfold mbind in R.
  apply Forall_cons_iff in V as (Vr & V). apply Forall_cons_iff in K as (Kr & K).
  assert (Fr := files_valid r Vr). assert (Fl := all_files_valid l V).
  assert (Ap : forall n, In n (files_of r) -> ~ In n (all_files l)).
  { intros n I1 I2. unfold all_files in ND. cbn [map List.concat] in ND. revert ND I1. clear - I2.
    induction (files_of r) as [|x xs IH]; cbn [app In]; [intros _ []|]. intros H. inversion H as [|? ? N H']; subst.
    intros [->|I1]; [apply N, in_or_app; auto|auto]. }
  assert (ND' : NoDup (all_files l)).
  { unfold all_files in *. cbn [map List.concat] in ND. revert ND. clear. induction (files_of r) as [|x xs IH]; cbn [app]; [auto|].
    intros H. inversion H; subst. auto. }
  destruct (put b e lim st r w) as [[[|]| | |] w1] eqn:P; try discriminate R.
  destruct (put_success b e lim id base r w w1 Vr Kr MO) as (Pl & MO1 & T); [intros n H; apply U, in_or_app; auto|exact P|].
  assert (U1 : unseen id base (all_files l) w1).
  { intros n Hn. destruct T as (_ & _ & Tm & _). rewrite Tm; [apply U, in_or_app; auto|]. intros (m & Hm & E).
    assert (E' : res_key st n = res_key st m) by exact (f_equal (fun c => match c with CFile k => k | CMem _ k => k end) E).
    rewrite Forall_forall in Fl, Fr. apply (res_key_inj st n m) in E'; auto. subst m. eapply Ap; eauto. }
  constructor; [|exact (IH w1 w' V ND' K MO1 U1 R)].
  assert (Sp : spared base (all_files l) w1 w') by (rewrite (same_faults w1 _ eq_refl) in R; exact (put_all_spared _ _ _ _ _ _ _ _ _ _ R)).
  eapply in_place_spared; [exact Sp| |exact Pl]. intros n Hn. rewrite Forall_forall in Fr. apply apart; auto.
Qed.
