(** When calls no longer fail, builders go on as if nothing had happened. *)
From Verif Require Import Base BaseFacts Codec CodecSpec CodecFacts Structs StructsSpec StructsFacts Views ViewsSpec ViewsFacts.
From Verif Require Import Storage PathFacts StorageSpec StorageFacts StorageMore StorageUse Writers WritersSpec HandleFacts EncodeFacts.
From Verif Require Import ElsewhereFacts ExtVecFacts ExtVecUse MultiViews MultiSpec MultiViewFacts MultiViewUse MultiVecFacts MultiVecUse.
From Verif Require Import Archives ArchiveSpec ArchiveFacts BuilderSpec BuilderFacts BuilderUse BuilderCrash DirFacts BuilderProgress.
From Verif Require Import RetrySpec RetryFacts RecoverSpec.
Local Open Scope list_scope.
Local Open Scope Z_scope.
Local Arguments firstn : simpl never.
Local Arguments skipn : simpl never.

(** * Writers that are not open are tidy *)
Lemma csim_tidy live a : forall id base A s w, idle A -> csim false live a id base A s w -> csim true live a id base A s w.
Proof.
  induction a as [name schema ss vs ms rs subs IH] using adesc_deep_ind. intros id base A s w I H.
  apply csim_eq in H as (E & Hid & S & U). apply csim_eq. inversion I as [A0 Iv Im Is]; subst A0.
  split; [exact E|]. split; [exact Hid|]. split.
  - intros sl. specialize (S sl). destruct sl as [|k|k|k|k]; try exact S; cbn [cslot] in *.
    + destruct (nth_error _ k); cbn [at_slot] in *; [|exact S]. specialize (Iv k). destruct (co_vecs A k) as [f|l|l|l]; try exact S.
      destruct (Iv l eq_refl).
    + destruct (nth_error _ k); cbn [at_slot] in *; [|exact S]. specialize (Im k). destruct (co_muls A k) as [| |l|l|l]; try exact S.
      destruct (Im l eq_refl).
  - intros k x Hk. specialize (U k x Hk). unfold csub in *. specialize (Is k). destruct (co_subs A k) as [| |B]; try exact U.
    destruct U as (id' & s' & E' & U). exists id', s'. split; [exact E'|].
    rewrite Forall_forall in IH. apply (IH x (nth_error_In _ _ Hk)); auto.
Qed.

(** * Sub-archives *)
Lemma tries_subs_fine o : forall a A A', tries a A o true A' -> subs_fine A -> subs_fine A'.
Proof.
  induction o as [k m|k v|k|k sets|k|k|k items|k|k d|k|k o IH]; intros a A A' T F; inversion T; subst;
    inversion F as [A0 F1 F2]; subst A0; try (constructor; [exact F1|exact F2]).
  - constructor; intros j; cbn [co_sub co_subs]; unfold nupd; destruct (Nat.eqb_spec j k); auto; try discriminate; try exact (F2 j).
    intros B [= <-]. constructor; [intros i; discriminate|intros i B; discriminate].
  - constructor; intros j; cbn [co_sub co_subs]; unfold nupd; destruct (Nat.eqb_spec j k); auto; try discriminate; try exact (F2 j).
    intros B [= <-]. eapply IH; eauto.
Qed.
Lemma csim_may_create tidy live o : forall a id base A s w ok A', wf_archive true a -> csim tidy live a id base A s w ->
  tries a A o ok A' -> subs_fine A -> may_create a base o w.
Proof.
  induction o as [k m|k v|k|k sets|k|k|k items|k|k d|k|k o IH]; intros a id base A s w ok A' Wf H T F; cbn [may_create]; try exact I;
    intros x Hk; inversion T; subst; apply csim_eq in H as (_ & _ & _ & U); specialize (U k x Hk); unfold csub in U;
    inversion F as [A0 F1 F2]; subst A0; destruct (sub_valid _ _ _ Wf (nth_error_In _ _ Hk)) as [V Wx].
  - match goal with H : _ \/ _ |- _ => destruct H as [E|E]; [|destruct (F1 _ E)] end. rewrite E in U. apply U.
    apply (under_res 0%nat). apply signature_valid. apply wf_eq in Wx. tauto.
  - match goal with H : nth_error _ k = Some ?y |- _ => assert (y = x) by congruence; subst y end.
    match goal with H : co_subs _ _ = SLive _ |- _ => rewrite H in U; apply F2 in H end. destruct U as (id' & s' & _ & U). eauto.
Qed.

(** * Steps *)
Lemma builder_new_step b e a st w o w' : builder_new b e a st w = (o, w') ->
  (forall k, ~ cells_of st (signature_name (ad_name a)) (CFile k) -> w_files w' k = w_files w k) /\ calm w w'.
Proof.
  intros R. unfold builder_new, mtry, create_archive in R. set (n := signature_name (ad_name a)) in *.
  assert (Ex : forall o w2, exists_ st n w = (o, w2) -> w_files w2 = w_files w /\ calm w w2).
  { intros o0 w2 Rx. unfold exists_, path_exists in Rx. destruct st as [id base|id base].
    { destruct (w_resources w _ _), (w_streams w _ _); injection Rx as _ <-; split; auto; intros X; exact X. }
    assert (Sy : forall o w2, syscall (fun w => (Ret (Ok (on_disk (res_key (FileStorage id base) n) w)), w)) w = (o, w2) -> w_files w2 = w_files w /\ calm w w2).
    { intros o2 w3 Sx. unfold syscall, next_fault in Sx. unfold calm.
      destruct (w_faults w) as [|f fs] eqn:Ef; [injection Sx as _ <-; auto|].
      assert (w3 = set_faults fs w) by (destruct f; congruence). subst w3. split; [reflexivity|discriminate]. }
    apply bind_any in Rx as [(r & w3 & Rx & Ry)|(o3 & Rx & _)]; [|eauto].
    assert (w2 = w3) by (destruct r; injection Ry; auto). subst w3. eauto. }
  assert (Fin : forall w2 o2, w_files w2 = w_files w /\ calm w w2 -> write b e st n (ad_schema a) [] w2 = (o2, w') ->
     (forall k, ~ cells_of st n (CFile k) -> w_files w' k = w_files w k) /\ calm w w').
  { intros w2 o2 [F C] W. destruct (write_touches _ _ _ _ _ _ _ _ _ W) as (T & _ & C'). split.
    - intros k N. rewrite <- F. apply T. exact N.
    - intros X. apply C', C, X. }
  apply bind_any in R as [(r & w1 & R & R')|(o1 & R & N1 & N2)].
  - assert (w1 = w') by (destruct r; injection R'; auto). subst w1.
    apply bind_any in R as [(ex & w2 & Rx & R)|(o2 & Rx & N & N')]; [|exfalso; eapply N'; reflexivity].
    apply Ex in Rx. destruct ex; [injection R as _ <-; destruct Rx as [-> C]; auto|].
    apply bind_any in R as [(r2 & w3 & R & R2)|(o2 & R & N & N')]; [|exfalso; eapply N'; reflexivity].
    assert (w3 = w') by (destruct r2; injection R2; auto). subst w3. eauto.
  - apply bind_any in R as [(ex & w2 & Rx & R)|(o2 & Rx & N & N')].
    + apply Ex in Rx. destruct ex; [injection R as _ <-; destruct Rx as [-> C]; auto|].
      apply bind_any in R as [(r2 & w3 & R & R2)|(o2 & R & N & N')]; [|eauto].
      assert (w3 = w') by (destruct r2; injection R2; auto). subst w3. eauto.
    + apply Ex in Rx. destruct Rx as [-> C]. auto.
Qed.

Section Root.
Context (a0 : adesc) (base0 : string) (W0 : wf_archive true a0) (D0 : dirs_apart a0).
Definition roomy (w : world) : Prop := room a0 base0 (set_faults [] w).

Lemma roomy_keep q a id base w w' : find_path a0 q = Some a -> key_of base = at_key base0 q ->
  (forall k, ~ (exists n, In n (part_names a) /\ cells_of (FileStorage id base) n (CFile k)) -> w_files w' k = w_files w k) ->
  dirs_within (key_of base) w w' -> roomy w -> roomy w'.
Proof.
  intros Hq Hb T D R.
  eapply (room_keep true a0 base0 W0 D0 q a id base (fun c => exists n, In n (part_names a) /\ cells_of (FileStorage id base) n c) (set_faults [] w) (set_faults [] w'));
    eauto.
Qed.
Lemma roomy_ready q a id base n w : roomy w -> find_path a0 q = Some a -> key_of base = at_key base0 q -> In n (part_names a) ->
  unblocked (FileStorage id base) n w.
Proof.
  intros R Hq Hb In_. assert (H : unblocked (FileStorage id base) n (set_faults [] w)); [|exact H].
  split; eapply (room_ready true a0 base0 W0 D0); eauto.
Qed.

Lemma write_roomy b e q a id base n schema d w o w' : let st := FileStorage id base in
  find_path a0 q = Some a -> key_of base = at_key base0 q -> roomy w -> In n (part_names a) -> fresh_name st n w ->
  write b e st n schema d w = (o, w') -> roomy w' /\ calm w w' /\ (w_faults w = [] -> o = Ret (Ok tt)).
Proof.
  intros st Hq Hb R Pn [U1 U2] W. destruct (write_touches _ _ _ _ _ _ _ _ _ W) as (T & _ & C).
  split; [|split; [exact C|]].
  - eapply (roomy_keep q a id base w w'); eauto.
    + intros k N. apply T. intros X. apply N. eauto.
    + assert (D := within_write (key_of base) b e st eq_refl eq_refl n schema d w). rewrite W in D. exact D.
  - intros F. destruct (roomy_ready q a id base n w R Hq Hb Pn) as [R1 R2].
    destruct (write_progresses b e st n schema d w) as [w2 W2]; auto; try (apply fresh_start; assumption). rewrite W in W2. congruence.
Qed.

Lemma ctry_room tidy b e lim o : forall a q id base A s w ok A' oc w', wf_archive true a -> maps_ok w ->
  csim tidy true a id base A s w -> tries a A o ok A' -> find_path a0 q = Some a -> key_of base = at_key base0 q -> roomy w ->
  bstep b e lim a o s w = (oc, w') ->
  roomy w' /\ calm w w' /\
  (w_faults w = [] -> (closes o = true -> tidy = true) ->
   exists f s', oc = Ret (f, s') /\ (f = true <-> may_create a base o w)).
Proof.
  induction o as [k m|k v|k|k sets|k|k|k items|k|k d|k|k o IH]; intros a q id base A s w ok A' oc w' Wf M Hs Hm Hq Hb Rm R;
    set (st := FileStorage id base) in *;
    inversion Hm; subst; cbn [bstep] in R;
    assert (Est : bs_st s = st) by (apply csim_eq in Hs; tauto); rewrite ?Est in R;
    assert (Ws := Wf); apply wf_eq in Ws; destruct Ws as (_ & _ & _ & Ws & Wv & Wm & Wr & _ & Wu);
    rewrite Forall_forall in Ws, Wv, Wm, Wr, Wu;
    match goal with H : nth_error _ _ = Some _ |- _ => assert (I := nth_error_In _ _ H); rename H into Hk end;
    try match goal with
    | H : co_vecs _ _ = _ |- _ => rename H into Hp
    | H : co_muls _ _ = _ |- _ => rename H into Hp
    | H : co_muls _ _ = _ \/ _ |- _ => rename H into Hp
    | H : co_subs _ _ = _ |- _ => rename H into Hp
    | H : co_subs _ _ = _ \/ _ |- _ => rename H into Hp
    end;
    try match goal with
    | H : sets_ok _ _ |- _ => rename H into Hok
    | H : items_ok _ _ |- _ => rename H into Hok
    | H : tries _ _ _ _ _ |- _ => match type of Hm with ?T => match type of H with T => fail 1 | _ => rename H into Hok end end
    end;
    rewrite ?Hk in R; cbn [with_some] in R;
    assert (S := Hs); apply csim_eq in S; destruct S as (_ & Hid & S & U).
  - (* struct *)
    specialize (S (SStruct k)). cbn [cslot] in S. rewrite Hk in S. cbn [at_slot] in S.
    assert (Pn : In (tr_name r) (part_names a)) by (apply (slot_part a (SStruct k)); cbn [slot_names]; rewrite Hk; left; auto).
    unfold set_struct in R. replace (_ <=? _) with true in R by (symmetry; apply Z.leb_le; assumption).
    unfold mbind in R. destruct (write b e st (tr_name r) _ _ w) as [o1 w1] eqn:W.
    destruct (write_roomy b e q a id base _ _ _ w o1 w1 Hq Hb Rm Pn (proj1 S eq_refl) W) as (R1 & C & P).
    destruct o1 as [x| | |]; injection R as <- <-; (split; [exact R1|]); (split; [exact C|]); intros F _;
      specialize (P F); try discriminate P. injection P as ->. exists true, s. split; [reflexivity|]. cbn [may_create]; tauto.
  - (* vector *)
    specialize (S (SVec k)). cbn [cslot] in S. rewrite Hk, Hp in S. cbn [at_slot vfslot] in S.
    assert (Pn : In (tr_name r) (part_names a)) by (apply (slot_part a (SVec k)); cbn [slot_names]; rewrite Hk; left; auto).
    unfold set_vector, mbind in R. destruct (write b e st (tr_name r) _ _ w) as [o1 w1] eqn:W.
    destruct (write_roomy b e q a id base _ _ _ w o1 w1 Hq Hb Rm Pn (proj1 S eq_refl) W) as (R1 & C & P).
    destruct o1 as [x| | |]; injection R as <- <-; (split; [exact R1|]); (split; [exact C|]); intros F _;
      specialize (P F); try discriminate P. injection P as ->. exists true, s. split; [reflexivity|]. cbn [may_create]; tauto.
  - (* start vector *)
    specialize (S (SVec k)). cbn [cslot] in S. rewrite Hk, Hp in S. cbn [at_slot vfslot] in S. assert (Fr := proj1 S eq_refl).
    assert (Pn : In (tr_name r) (part_names a)) by (apply (slot_part a (SVec k)); cbn [slot_names]; rewrite Hk; left; auto).
    unfold start_vector, mbind in R.
    destruct (create_external_vector b e st (tr_name r) (tr_schema r) w) as [o1 w1] eqn:R1.
    destruct (create_ev_cases b e st _ _ (tr_struct r) w _ w1 Fr R1) as [(T & _ & C) P].
    assert (Rw : roomy w1).
    { eapply (roomy_keep q a id base w w1); eauto.
      - intros x N. apply T. intros X. apply N. eauto.
      - assert (D := within_create_ev (key_of base) b e st eq_refl eq_refl (tr_name r) (tr_schema r) w). rewrite R1 in D. exact D. }
    assert (w' = w1) by (destruct o1 as [[x|x]| | |]; injection R; auto). subst w1.
    split; [exact Rw|]. split; [exact C|]. intros F _.
    destruct P as [(v' & -> & Hv)|(_ & _ & N & _)].
    2:{ exfalso. apply (N F). eapply roomy_ready; eauto. }
    injection R as <-. eexists true, _. split; [reflexivity|]. cbn [may_create]; tauto.
  - (* grow *)
    specialize (S (SVec k)). cbn [cslot] in S. rewrite Hk, Hp in S. cbn [at_slot vfslot] in S.
    destruct S as (Sz & v & W & rest & c & Ev & Ti & Hv). rewrite Ev in R. cbn [with_some] in R. unfold mbind in R.
    assert (Pn : In (tr_name r) (part_names a)) by (apply (slot_part a (SVec k)); cbn [slot_names]; rewrite Hk; left; auto).
    destruct (Wv r I) as [[_ So] Wst].
    assert (Ll : Z.of_nat (length (elements (tr_struct r) l)) = Z.of_nat (length l)) by (rewrite elements_length; reflexivity).
    destruct (ev_step b e lim (tr_struct r) (EGrow sets) v w) as [o1 w1] eqn:R1.
    destruct (ev_step_cases b e lim _ sets st _ _ v w _ W rest _ _ w1 Wst Hok Hv ltac:(rewrite Ll; lia) R1) as [(T & _ & C) P].
    assert (Rw : roomy w1).
    { eapply (roomy_keep q a id base w w1); eauto.
      - intros x N. apply T. intros X. apply N. exists (tr_name r). split; [exact Pn|]. left. symmetry. exact X.
      - assert (D := within_ev_step (key_of base) b e lim (tr_struct r) sets v w). rewrite R1 in D. exact D. }
    assert (w' = w1) by (destruct o1 as [[x1 x2]| | |]; injection R; auto). subst w1.
    split; [exact Rw|]. split; [exact C|]. intros F _.
    destruct P as [(v2 & W2 & r2 & c2 & -> & _)|(_ & N & _)]; [|destruct (N F)].
    injection R as <-. eexists true, _. split; [reflexivity|]. cbn [may_create]; tauto.
  - (* close *)
    specialize (S (SVec k)). cbn [cslot] in S. rewrite Hk, Hp in S. cbn [at_slot vfslot] in S.
    destruct S as (Sz & v & W & rest & c & Ev & Ti & Hv). rewrite Ev in R. cbn [with_some] in R. unfold mbind in R.
    assert (Pn : In (tr_name r) (part_names a)) by (apply (slot_part a (SVec k)); cbn [slot_names]; rewrite Hk; left; auto).
    destruct (Wv r I) as [[_ So] Wst].
    assert (Ll : Z.of_nat (length (elements (tr_struct r) l)) = Z.of_nat (length l)) by (rewrite elements_length; reflexivity).
    destruct (ev_inv_bytes _ _ _ _ _ _ _ _ _ _ Hv) as (BW & Br & Lb). rewrite Ll in Lb.
    destruct (ev_close b e v w) as [o1 w1] eqn:R1.
    destruct (ev_close_cases b e st _ _ _ v w _ W rest _ _ w1 Hv M (schema_ok_like _ st _ eq_refl So) ltac:(lia) R1)
      as (T & C & _ & P).
    assert (Rw : roomy w1).
    { eapply (roomy_keep q a id base w w1); eauto.
      - intros x N. apply T. intros X. apply N. eauto.
      - assert (D := within_ev_close (key_of base) b e v w). rewrite R1 in D. exact D. }
    assert (w' = w1) by (destruct o1 as [[x|x]| | |]; injection R; auto). subst w1.
    split; [exact Rw|]. split; [exact C|]. intros F Cl. specialize (Ti (Cl eq_refl)). subst c.
    destruct P as [(_ & N & _)|(_ & _ & _ & _ & P)]; [destruct (N F)|].
    assert (Lc : len ((zeros 8 ++ W) ++ rest) + 8 <= isize_max).
    { unfold len. rewrite !app_length, !Nat2Z.inj_add. change (Z.of_nat (length (zeros 8))) with 8. fold (len W) (len rest). lia. }
    destruct P as [(r' & -> & _ & P)|P]; [|lia].
    destruct P as [y ->]; [right; exact F|symmetry; apply app_assoc|].
    injection R as <-. eexists true, _. split; [reflexivity|]. cbn [may_create]; tauto.
  - (* start multi *)
    specialize (S (SMul k)). cbn [cslot] in S. rewrite Hk in S. cbn [at_slot] in S.
    destruct (Wm r I) as (Wi & En & So & Wis & Wts & Sz). assert (Vn := identifier_valid _ Wi).
    assert (S' : fresh_name st (mr_name r) w /\ fresh_name st (index_name (mr_name r)) w).
    { rewrite <- En. destruct Hp as [E|E]; rewrite E in S; cbn [mfslot] in S; destruct S as [S1 S2]; split; [apply S2|apply S1|apply S2|apply S1]; reflexivity. }
    assert (Pn : In (mr_name r) (part_names a) /\ In (index_name (mr_name r)) (part_names a)).
    { rewrite <- En. split; apply (slot_part a (SMul k)); cbn [slot_names]; rewrite Hk; simpl; auto. }
    unfold start_multi, mbind in R.
    destruct (create_multi_vector b e st (mr_name r) (mr_schema r) w) as [o1 w1] eqn:R1.
    destruct (create_mv_cases b e (mr_size r) (mr_bits r) (mr_types r) st (mr_name r) (mr_schema r) Vn w _ w1 S' R1) as [(T & _ & C) P].
    assert (Rw : roomy w1).
    { eapply (roomy_keep q a id base w w1); eauto.
      - intros x N. apply T. intros [X|X]; apply N; eexists; (split; [|exact X]); apply Pn.
      - assert (D := within_create_mv (key_of base) b e st eq_refl eq_refl (mr_name r) (mr_schema r) w). rewrite R1 in D. exact D. }
    assert (w' = w1) by (destruct o1 as [[x|x]| | |]; injection R; auto). subst w1.
    split; [exact Rw|]. split; [exact C|]. intros F _.
    destruct P as [(v' & -> & Hv)|(_ & _ & N & _)].
    2:{ exfalso. apply (N F). split; eapply roomy_ready; eauto; apply Pn. }
    injection R as <-. eexists true, _. split; [reflexivity|]. cbn [may_create]; tauto.
  - (* multi grow *)
    specialize (S (SMul k)). cbn [cslot] in S. rewrite Hk, Hp in S. cbn [at_slot mfslot] in S.
    destruct S as (S1 & S2 & S3 & v & bs & clean & Ev & Ti & Lb & Hv). rewrite Ev in R. cbn [with_some] in R. unfold mbind in R.
    destruct (Wm r I) as (Wi & En & So & Wis & Wts & Sz). assert (Vn := identifier_valid _ Wi).
    assert (Pn : In (mr_name r) (part_names a) /\ In (index_name (mr_name r)) (part_names a)).
    { rewrite <- En. split; apply (slot_part a (SMul k)); cbn [slot_names]; rewrite Hk; simpl; auto. }
    assert (Ll := mv_inv_length _ _ _ _ _ _ _ _ _ _ _ _ Hv). unfold buckets in Ll. rewrite map_length in Ll.
    rewrite buckets_size_snoc in *.
    destruct (mv_step b e lim (mr_size r) (mr_bits r) (mr_types r) (MGrow items) v w) as [o1 w1] eqn:R1.
    destruct (mv_step_cases b e lim (mr_size r) (mr_bits r) (mr_types r) st (mr_name r) (mr_schema r) Wis Wts Vn
                items v w _ bs clean _ w1 Hok Hv ltac:(lia) ltac:(lia) ltac:(rewrite <- Ll; lia) R1) as [(T & _ & C) P].
    assert (Rw : roomy w1).
    { eapply (roomy_keep q a id base w w1); eauto.
      - intros x N. apply T. intros [X|X]; apply N; eexists; (split; [|exact X]); apply Pn.
      - assert (D := within_mv_step (key_of base) b e lim (mr_size r) (mr_bits r) (mr_types r) items v w). rewrite R1 in D. exact D. }
    assert (w' = w1) by (destruct o1 as [[x1 x2]| | |]; injection R; auto). subst w1.
    split; [exact Rw|]. split; [exact C|]. intros F _.
    destruct P as [(v2 & bytes & -> & _)|(_ & N & _)]; [|destruct (N F)].
    injection R as <-. eexists true, _. split; [reflexivity|]. cbn [may_create]; tauto.
  - (* multi close *)
    specialize (S (SMul k)). cbn [cslot] in S. rewrite Hk, Hp in S. cbn [at_slot mfslot] in S.
    destruct S as (S1 & S2 & S3 & v & bs & clean & Ev & Ti & Lb & Hv). rewrite Ev in R. cbn [with_some] in R. unfold mbind in R.
    destruct (Wm r I) as (Wi & En & So & Wis & Wts & Sz). assert (Vn := identifier_valid _ Wi).
    assert (Pn : In (mr_name r) (part_names a) /\ In (index_name (mr_name r)) (part_names a)).
    { rewrite <- En. split; apply (slot_part a (SMul k)); cbn [slot_names]; rewrite Hk; simpl; auto. }
    assert (Ll := mv_inv_length _ _ _ _ _ _ _ _ _ _ _ _ Hv). unfold buckets in Ll. rewrite map_length in Ll.
    destruct (mv_close b e lim (mr_size r) (mr_bits r) v w) as [o1 w1] eqn:R1.
    destruct (mv_close_cases b e lim (mr_size r) (mr_bits r) (mr_types r) st (mr_name r) (mr_schema r) Wis Wts Vn
                v w _ bs clean _ w1 Hv M (mv_schema_ok_like _ st _ eq_refl So) ltac:(lia) ltac:(lia) ltac:(rewrite <- Ll; lia) R1)
      as (T & C & _ & P).
    assert (Rw : roomy w1).
    { eapply (roomy_keep q a id base w w1); eauto.
      - intros x N. apply T. intros [X|X]; apply N; eexists; (split; [|exact X]); apply Pn.
      - assert (D := within_mv_close (key_of base) b e lim (mr_size r) (mr_bits r) v w). rewrite R1 in D. exact D. }
    assert (w' = w1) by (destruct o1 as [[x|x]| | |]; injection R; auto). subst w1.
    split; [exact Rw|]. split; [exact C|]. intros F Cl. specialize (Ti (Cl eq_refl)). subst clean.
    destruct P as [(_ & N & _)|[[E _]|[[E _]|(r' & -> & _ & _ & P)]]]; try discriminate E; [destruct (N F)|].
    destruct (P eq_refl (or_intror F)) as (iv & d & ->).
    injection R as <-. eexists true, _. split; [reflexivity|]. cbn [may_create]; tauto.
  - (* raw *)
    specialize (S (SRaw k)). cbn [cslot] in S. rewrite Hk in S. cbn [at_slot] in S.
    assert (Pn : In (rr_name r) (part_names a)) by (apply (slot_part a (SRaw k)); cbn [slot_names]; rewrite Hk; left; auto).
    unfold set_raw, mbind in R. destruct (write b e st (rr_name r) _ _ w) as [o1 w1] eqn:W.
    destruct (write_roomy b e q a id base _ _ _ w o1 w1 Hq Hb Rm Pn (proj1 S eq_refl) W) as (R1 & C & P).
    destruct o1 as [x| | |]; injection R as <- <-; (split; [exact R1|]); (split; [exact C|]); intros F _;
      specialize (P F); try discriminate P. injection P as ->. exists true, s. split; [reflexivity|]. cbn [may_create]; tauto.
  - (* new sub-archive *)
    destruct (sub_valid _ _ _ Wf I) as [V Wx].
    assert (Vn : valid_name (signature_name (ad_name (snd (fst s0))))) by (apply signature_valid; apply wf_eq in Wx; tauto).
    assert (Hq' : find_path a0 (q ++ [fst (fst s0)]) = Some (snd (fst s0))).
    { rewrite find_path_app, Hq. cbn [find_path]. rewrite (sub_of_nth _ _ _ _ Wf Hk). reflexivity. }
    assert (Hk' : key_of (path_join base (fst (fst s0))) = at_key base0 (q ++ [fst (fst s0)])).
    { rewrite key_join by exact V. unfold at_key in *. assert (E : fst (key_of base) = fst (key_of base0)) by (rewrite Hb; reflexivity).
      cbn in E. rewrite E, Hb. cbn [snd]. rewrite <- app_assoc. reflexivity. }
    set (base' := path_join base (fst (fst s0))) in *. set (st' := FileStorage (w_next w) base').
    set (wn := snd (file_new base' w)). assert (Rn : roomy wn) by exact Rm.
    unfold mbind in R. assert (Sb : sub_builder b e st s0 w = builder_new b e (snd (fst s0)) st' wn) by reflexivity.
    rewrite Sb in R. destruct (builder_new b e (snd (fst s0)) st' wn) as [o1 w1] eqn:Bn.
    destruct (builder_new_step _ _ _ _ _ _ _ Bn) as [T C].
    assert (w' = w1) by (destruct o1 as [[x|x]| | |]; injection R; auto). subst w1.
    split; [|split; [exact C|]].
    { eapply (roomy_keep (q ++ [fst (fst s0)]) (snd (fst s0)) (w_next w) base' wn w'); eauto.
      - intros x N. apply T. intros X. apply N. eexists. split; [left; reflexivity|exact X].
      - assert (D : within (key_of base') (builder_new b e (snd (fst s0)) st')).
        { unfold builder_new. apply within_try; [apply within_create_archive; auto|]. intros x. apply within_ret. }
        specialize (D wn). rewrite Bn in D. exact D. }
    intros F _. set (n := signature_name (ad_name (snd (fst s0)))) in *.
    destruct (roomy_ready (q ++ [fst (fst s0)]) (snd (fst s0)) (w_next w) base' n wn Rn Hq' Hk') as [R1 R2]; [left; reflexivity|].
    assert (Ex : exists_ st' n wn = (Ret (match w_files w (key_of (path_join base' n)) with Some _ => true | None => false end), wn)).
    { rewrite exists_eq by exact F. f_equal. f_equal. destruct R1 as [R1 _]. unfold present, on_disk.
      change (res_key st' n) with (key_of (path_join base' n)) in *.
      change (w_files wn) with (w_files w). destruct (w_files w _); [reflexivity|exact R1]. }
    unfold builder_new, create_archive, mtry, mbind in Bn. fold n in Bn. rewrite Ex in Bn. cbn [may_create].
    destruct (w_files w (key_of (path_join base' n))) as [cc|] eqn:Ec.
    + injection Bn as <- <-. injection R as <-. eexists false, _. split; [reflexivity|]. split; [discriminate|].
      intros X. specialize (X s0 Hk). fold base' n in X. congruence.
    + destruct (write_progresses b e st' n (ad_schema (snd (fst s0))) [] wn) as [w2 W2]; auto;
        try (apply fresh_start; simpl; rewrite nupd_same; reflexivity).
      rewrite W2 in Bn. injection Bn as <- <-. injection R as <-. eexists true, _. split; [reflexivity|]. split; [|auto].
      intros _ x Hx. assert (x = s0) by congruence. subst x. exact Ec.
  - (* in a sub-archive *)
    specialize (U k s0 Hk). unfold csub in U. rewrite Hp in U. destruct U as (id' & s1 & Es & H1).
    rewrite Es in R. cbn [with_some] in R. destruct (sub_valid _ _ _ Wf I) as [V Wx].
    unfold mbind in R. destruct (bstep b e lim (snd (fst s0)) o s1 w) as [o1 w1] eqn:R1.
    assert (Hq' : find_path a0 (q ++ [fst (fst s0)]) = Some (snd (fst s0))).
    { rewrite find_path_app, Hq. cbn [find_path]. rewrite (sub_of_nth _ _ _ _ Wf Hk). reflexivity. }
    assert (Hk' : key_of (path_join base (fst (fst s0))) = at_key base0 (q ++ [fst (fst s0)])).
    { rewrite key_join by exact V. unfold at_key in *. assert (E : fst (key_of base) = fst (key_of base0)) by (rewrite Hb; reflexivity).
      cbn in E. rewrite E, Hb. cbn [snd]. rewrite <- app_assoc. reflexivity. }
    destruct (IH _ _ _ _ _ _ _ _ _ _ _ Wx M H1 Hok Hq' Hk' Rm R1) as (X & Y & Z).
    assert (w' = w1) by (destruct o1 as [[x1 x2]| | |]; injection R; auto). subst w1.
    split; [exact X|]. split; [exact Y|]. intros F Cl. destruct (Z F Cl) as (f & s' & -> & Hf).
    injection R as <-. eexists f, _. split; [reflexivity|]. rewrite Hf. cbn [may_create]. split; [|auto].
    intros Hx x Hy. assert (x = s0) by congruence. subst x. exact Hx.
Qed.
End Root.

(** * Runs *)
Lemma croom b e lim a id base ops : wf_archive true a -> dirs_apart a -> forall A A' s w flags s' w', maps_ok w ->
  csim false true a id base A s w -> brun b e lim a ops s w = (Ret (flags, s'), w') -> attempts a A ops flags A' ->
  roomy a base w -> roomy a base w'.
Proof.
  intros Wf Da. induction ops as [|o ops IH]; intros A A' s w flags s' w' M Hs R Hh Rm; inversion Hh; subst; cbn [brun] in R.
  - apply ret_pair in R as (_ & _ & ->). exact Rm.
  - apply bind_ret in R as ([f1 s1] & w1 & R1 & R). apply bind_ret in R as ([f2 s2] & w2 & R2 & R).
    apply ret_pair in R as (E & -> & ->). cbn [fst snd] in *. injection E as -> ->.
    match goal with H : tries _ _ _ _ _ |- _ => rename H into Hm end.
    match goal with H : attempts _ _ ops _ _ |- _ => rename H into Hh' end.
    destruct (ctry_step false b e lim o a id base A s w f1 _ _ s1 true w1 Wf M Hs Hm ltac:(discriminate) R1 (or_introl (conj eq_refl eq_refl))) as (X & Y & Z).
    destruct (ctry_room a base Wf Da false b e lim o a [] id base A s w f1 _ _ w1 Wf M Hs Hm eq_refl (at_root base) Rm R1) as (Rm1 & _ & _).
    eapply IH; eauto.
Qed.

Lemma cgo b e lim a id base ops : wf_archive true a -> dirs_apart a -> forall A A' s w, maps_ok w ->
  csim true true a id base A s w -> subs_fine A -> attempts a A ops (repeat true (length ops)) A' -> roomy a base w -> w_faults w = [] ->
  exists s' w', brun b e lim a ops s w = (Ret (repeat true (length ops), s'), w') /\ csim true true a id base A' s' w'.
Proof.
  intros Wf Da. induction ops as [|o ops IH]; intros A A' s w M Hs Sf Hh Rm F; cbn [length repeat] in Hh; inversion Hh; subst.
  - exists s, w. split; [reflexivity|exact Hs].
  - match goal with H : tries _ _ _ _ _ |- _ => rename H into Hm end.
    match goal with H : attempts _ _ ops _ _ |- _ => rename H into Hh' end.
    destruct (bstep b e lim a o s w) as [oc w1] eqn:R1.
    destruct (ctry_room a base Wf Da true b e lim o a [] id base A s w true _ _ w1 Wf M Hs Hm eq_refl (at_root base) Rm R1) as (Rm1 & C & P).
    destruct (P F (fun _ => eq_refl)) as (f & s1 & -> & Hf).
    assert (f = true) by (apply Hf; eapply csim_may_create; eauto). subst f.
    destruct (ctry_step true b e lim o a id base A s w true _ _ s1 true w1 Wf M Hs Hm (fun _ => F) R1 (or_introl (conj eq_refl eq_refl))) as (X & Y & Z).
    destruct (IH _ _ s1 w1 Z X (tries_subs_fine _ _ _ _ Hm Sf) Hh' Rm1 (C F)) as (s2 & w2 & R2 & X2).
    exists s2, w2. split; [|exact X2]. cbn [brun length repeat]. unfold mbind. rewrite R1. cbn [fst snd]. rewrite R2. reflexivity.
Qed.

Lemma bare_roomy a base w : bare base w -> roomy a base w.
Proof. intros [N E]. eapply (empty_room a base 0%nat). split; [reflexivity|]. split; [exact N|exact E]. Qed.

Section After.
Context (b : build) (e : endian) (lim : Z) (a : adesc) (id : nat) (base : string) (w : world) (st' : storage) (w1 : world).
Context (ops : list bop) (flags : list bool) (A : course) (s2 : bstate) (w2 : world).
Let st := FileStorage id base.
Hypotheses (Wf : wf_archive true a) (Da : dirs_apart a) (M : maps_ok w) (Un : unused_storage st w) (Ba : bare base w).
Hypotheses (R : builder_new b e a st w = (Ret (Ok st'), w1)) (Rr : brun b e lim a ops (new_bstate st') w1 = (Ret (flags, s2), w2)).
Hypotheses (Hh : attempts a no_course ops flags A).

Lemma after : csim false true a id base A s2 w2 /\ maps_ok w2 /\ roomy a base w2.
Proof.
  destruct (unused_half a id base w Wf Un) as (Hid & Hm & H).
  destruct (cbuilder_new false b e a id base w _ w1 Wf M Hid Hm H R) as (_ & M1 & [(E & S1)|(N & _)]); [|destruct (N _ eq_refl)].
  injection E as E. rewrite E in Rr.
  destruct (crun b e lim a ops id base _ _ _ _ _ _ _ _ Wf M1 S1 Rr Hh eq_refl) as (S2 & _ & M2).
  split; [exact S2|]. split; [exact M2|].
  apply (croom b e lim a id base ops Wf Da no_course A (new_bstate (FileStorage id base)) w1 flags s2 w2 M1 S1 Rr Hh).
  destruct (builder_new_step _ _ _ _ _ _ _ R) as [T _].
  eapply (roomy_keep a base Wf Da [] a id base w w1); [reflexivity|apply at_root| | |apply bare_roomy; exact Ba].
  - intros k N. apply T. intros X. apply N. eexists. split; [left; reflexivity|exact X].
  - assert (D : within (key_of base) (builder_new b e a st)).
    { unfold builder_new. apply within_try; [apply within_create_archive; auto|]. intros x. apply within_ret. }
    specialize (D w). rewrite R in D. exact D.
Qed.

Lemma after_one o A' : w_faults w2 = [] -> tries a A o true A' -> closes o = false ->
  exists f s3 w3, bstep b e lim a o s2 w2 = (Ret (f, s3), w3) /\ (f = true <-> may_create a base o w2).
Proof.
  intros F Ht Cl. destruct after as (S2 & M2 & Rm2). destruct (bstep b e lim a o s2 w2) as [oc w3] eqn:Rs.
  destruct (ctry_room a base Wf Da false b e lim o a [] id base A s2 w2 true _ _ w3 Wf M2 S2 Ht eq_refl (at_root base) Rm2 Rs) as (_ & _ & P).
  destruct (P F) as (f & s3 & -> & Hf); [congruence|]. eauto.
Qed.

Lemma after_all b' e' ops' A' : w_faults w2 = [] -> idle A -> subs_fine A ->
  attempts a A ops' (repeat true (length ops')) A' ->
  exists s3 w3, brun b e lim a ops' s2 w2 = (Ret (repeat true (length ops'), s3), w3) /\
    (disk_ok w3 -> complete a A' -> exists x, fresh_open b' e' a base w3 = Ret (Ok x) /\ course_shows a A' x).
Proof.
  intros F Id Sf Ha. destruct after as (S2 & M2 & Rm2).
  destruct (cgo b e lim a id base ops' Wf Da A A' s2 w2 M2 (csim_tidy _ _ _ _ _ _ _ Id S2) Sf Ha Rm2 F) as (s3 & w3 & R3 & S3).
  exists s3, w3. split; [exact R3|]. intros Dk Co.
  destruct (csim_settled true true a id base A' s3 w3 Wf Dk S3) as (L & C & T).
  destruct (fresh_open_exact b' e' a base w3 Dk (or_intror T)) as (r & E & X' & Y).
  assert (exists x, r = Ok x) as [x ->] by (apply X'; auto). exists x. split; [exact E|]. specialize (Y x eq_refl). auto.
Qed.
End After.
