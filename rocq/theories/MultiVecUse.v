(** Properties of multivectors, from creation to close. *)
From Verif Require Import Base BaseFacts Codec CodecSpec CodecFacts Structs StructsSpec StructsFacts.
From Verif Require Import Views ViewsSpec ViewsFacts Storage PathFacts StorageSpec.
From Verif Require Import StorageFacts StorageMore StorageUse Writers WritersSpec HandleFacts EncodeFacts ElsewhereFacts.
From Verif Require Import ExtVecFacts ExtVecUse MultiViews MultiSpec MultiViewFacts MultiViewUse MultiVecFacts.
Local Open Scope list_scope.
Local Open Scope Z_scope.
Local Arguments firstn : simpl never.
Local Arguments skipn : simpl never.

(** * Counting *)
Lemma mv_grows_nonneg ops : 0 <= mv_grows ops.
Proof. induction ops as [|[|] ? ?]; cbn [mv_grows]; lia. Qed.

Lemma mv_size_nonneg st name ts ops : wf_vdesc ts -> Forall (mv_op_ok st name ts) ops -> 0 <= mv_size ts ops.
Proof.
  intros Hwf H. induction H as [|[items|f] ops Ho _ IH]; cbn [mv_size]; try lia.
  assert (X := items_size_nonneg ts items Hwf Ho). lia.
Qed.

Lemma mv_kept_all ops : forall flags, length flags = length ops -> Forall (eq true) flags -> mv_kept ops flags = mv_all ops.
Proof.
  induction ops as [|o ops IH]; intros [|x flags] L F; try discriminate; [reflexivity|].
  inversion F; subst. simpl in L. specialize (IH flags ltac:(lia) H2). destruct o; cbn [mv_kept mv_all]; congruence.
Qed.

Lemma mv_all_length ops : Z.of_nat (length (mv_all ops)) = mv_grows ops.
Proof. induction ops as [|[|] ? ?]; cbn [mv_all mv_grows]; simpl length; lia. Qed.

(** What is stored for a finished resource. *)
Definition stored (st : storage) (name : string) (schema D : list Z) (w : world) : Prop :=
  bytes_at (cell_at st name) w = Some (resource_bytes D) /\
  bytes_at (cell_at st (schema_name name)) w = Some schema /\
  finds st w name (Some (resource_bytes D)) /\ finds st w (schema_name name) (Some schema).

Lemma stored_touches P st name schema D w w' : touches P w w' -> ~ P (cell_at st name) -> ~ P (cell_at st (schema_name name)) ->
  stored st name schema D w -> stored st name schema D w'.
Proof.
  intros T N1 N2 (A & B & C & E). split; [erewrite bytes_at_touches; eauto|]. split; [erewrite bytes_at_touches; eauto|].
  split; eapply finds_touches; eauto.
Qed.

Lemma unfinished_touches P st name schema D w w' : touches P w w' -> ~ P (cell_at st name) -> ~ P (cell_at st (schema_name name)) ->
  unfinished st name schema D w -> unfinished st name schema D w'.
Proof.
  intros T N1 N2 (A & c & B & C). split; [erewrite bytes_at_touches; eauto|]. exists c.
  split; [erewrite bytes_at_touches; eauto|auto].
Qed.

Section Env.
Variables (b : build) (e : endian) (lim size bits : Z) (ts : vdesc) (st : storage) (name : string) (schema : list Z).
Hypotheses (Hwi : wf_struct (index_struct size bits)) (Hwf : wf_vdesc ts) (Hn : valid_name name).
Let is := index_struct size bits.
Notation inv := (mv_inv st name schema ts size bits).

Lemma mv_inv_intact v w w' offs l bs clean :
  (forall n, In n [name; schema_name name; index_name name; schema_name (index_name name)] -> intact st n w w') ->
  inv v w offs l bs clean -> inv v w' offs l bs clean.
Proof.
  intros I (Wi & ri & ci & Wd & rd & cd & Hi & E1 & E2 & Bd & Ec & F & Hw & Cl).
  exists Wi, ri, ci, Wd, rd, cd.
  split; [eapply ev_inv_intact; [| |exact Hi]; apply I; simpl; auto|]. split; auto. split; auto. split; auto. split; auto. split; auto.
  split; [eapply writing_intact; [| |exact Hw]; apply I; simpl; auto|auto].
Qed.

Lemma mv_inv_length v w offs l bs clean : inv v w offs l bs clean -> length l = length bs.
Proof.
  intros (Wi & ri & ci & Wd & rd & cd & Hi & E1 & E2 & Bd & Ec & F & _). symmetry. eapply Forall2_length; eauto.
Qed.

(** * A history *)
Lemma mv_run_cases ops : Forall (mv_op_ok st name ts) ops -> forall v w l bs clean o w',
  inv v w (bounds 0 bs) l bs clean -> maps_ok w ->
  len (concat bs) + mv_size ts ops < 2 ^ bits -> len (concat bs) + mv_size ts ops + 8 <= isize_max ->
  (Z.of_nat (length bs) + mv_grows ops) * size + 8 <= isize_max ->
  mv_run b e lim size bits ts ops v w = (o, w') ->
  maps_ok w' /\
  (forall P : cell -> Prop, (forall c, mv_cells st name c -> P c) ->
     (forall f, In f (mv_others ops) -> forall w, maps_ok w -> touches P w (f w)) -> touches P w w') /\
  ((exists flags v' bs' clean', o = Ret (flags, v') /\ length flags = length ops /\
      inv v' w' (bounds 0 bs') (l ++ buckets ts (mv_kept ops flags)) bs' clean' /\
      len (concat bs') <= len (concat bs) + mv_size ts ops /\
      Z.of_nat (length bs') <= Z.of_nat (length bs) + mv_grows ops /\
      (clean = true -> Forall (eq true) flags -> clean' = true) /\
      (quiet st (mv_others ops) w -> Forall (eq true) flags /\ (is_file st = true -> w_faults w' = []))) \/
   (o = Crash /\ is_file st = true /\ ~ quiet st (mv_others ops) w /\ mv_unsealed st name schema w')).
Proof.
  intros Hok. pose proof Hwi as (Hpos & _). change (s_size (index_struct size bits)) with size in Hpos.
  induction Hok as [|op ops Ho Hok IH]; intros v w l bs clean o w' Hi MO HB HL HI R.
  - cbn in R. injection R as <- <-. split; auto. split; [intros; apply touches_refl|]. left. exists [], v, bs, clean.
    split; auto. split; auto. simpl. rewrite app_nil_r. split; auto. split; [lia|]. split; [lia|]. split; auto.
    intros [Q|(Q & _)]; split; auto. congruence.
  - pose proof (mv_grows_nonneg ops) as Gnn. assert (Snn := mv_size_nonneg _ _ _ _ Hwf Hok).
    pose proof (len_nonneg (concat bs)) as Lnn.
    cbn [mv_run] in R. unfold mbind at 1 in R. destruct op as [items|f].
    + cbn [mv_op_ok] in Ho. cbn [mv_grows mv_size] in *. assert (Inn := items_size_nonneg ts items Hwf Ho).
      destruct (mv_step b e lim size bits ts (MGrow items) v w) as [o1 w1] eqn:E1.
      destruct (mv_step_cases b e lim size bits ts st name schema Hwi Hwf Hn items v w l bs clean o1 w1 Ho Hi
        ltac:(lia) ltac:(lia) ltac:(nia) E1) as (S1 & X).
      assert (MO1 : maps_ok w1) by (eapply maps_ok_caches; [apply S1|auto]).
      assert (T1 : forall P : cell -> Prop, (forall c, mv_cells st name c -> P c) -> touches P w w1).
      { intros P HP. eapply touches_mono; [exact HP|apply S1]. }
      assert (Next : forall r v1 l1 bs1 clean1, o1 = Ret (r, v1) -> inv v1 w1 (bounds 0 bs1) l1 bs1 clean1 ->
        len (concat bs1) <= len (concat bs) + items_size ts items -> Z.of_nat (length bs1) <= Z.of_nat (length bs) + 1 ->
        maps_ok w' /\
        (forall P : cell -> Prop, (forall c, mv_cells st name c -> P c) ->
           (forall f, In f (mv_others ops) -> forall w, maps_ok w -> touches P w (f w)) -> touches P w1 w') /\
        ((exists flags v' bs' clean', o = Ret (r :: flags, v') /\ length flags = length ops /\
            inv v' w' (bounds 0 bs') (l1 ++ buckets ts (mv_kept ops flags)) bs' clean' /\
            len (concat bs') <= len (concat bs1) + mv_size ts ops /\
            Z.of_nat (length bs') <= Z.of_nat (length bs1) + mv_grows ops /\
            (clean1 = true -> Forall (eq true) flags -> clean' = true) /\
            (quiet st (mv_others ops) w1 -> Forall (eq true) flags /\ (is_file st = true -> w_faults w' = []))) \/
         (o = Crash /\ is_file st = true /\ ~ quiet st (mv_others ops) w1 /\ mv_unsealed st name schema w'))).
      { intros r v1 l1 bs1 clean1 -> I1 L1 L2. unfold mbind in R. cbn [snd fst] in R.
        destruct (mv_run b e lim size bits ts ops v1 w1) as [o2 w2] eqn:E2.
        destruct (IH v1 w1 l1 bs1 clean1 o2 w2 I1 MO1 ltac:(lia) ltac:(lia) ltac:(nia) E2) as (MO2 & T2 & Y).
        destruct Y as [(flags & v' & bs' & clean' & -> & Lf & I2 & A1 & A2 & C2 & Q2)|(-> & Hfile & Q & U)].
        - cbn in R. unfold mret in R. injection R as <- <-. split; auto. split; auto. left. exists flags, v', bs', clean'.
          split; auto 10.
        - injection R as <- <-. split; [auto|]. split; [auto|]. right. auto. }
      assert (Q1 : quiet st (mv_others ops) w -> quiet st (mv_others ops) w1).
      { intros [Q|(Q & Q')]; [left; auto|right]. split; auto. apply S1; auto. }
      destruct X as [(v1 & bytes & -> & Lb & I1)|(Hfile & Hf & X)].
      * destruct (Next true v1 _ (bs ++ [bytes]) clean eq_refl I1) as (MO2 & T2 & Y).
        { rewrite concat_snoc, len_app. lia. }
        { rewrite app_length. simpl length. lia. }
        rewrite concat_snoc, len_app, app_length in Y. simpl length in Y.
        split; auto. split. { intros P HP HO. eapply touches_trans; [apply T1; auto|apply T2; auto]. }
        destruct Y as [(flags & v' & bs' & clean' & -> & Lf & I2 & A1 & A2 & C2 & Q2)|(-> & Hfile & Q & U)].
        -- left. exists (true :: flags), v', bs', clean'. split; auto. split; [simpl; lia|].
           split; [cbn [mv_kept buckets map]; rewrite <- app_assoc in I2; exact I2|]. split; [lia|]. split; [lia|]. split.
           ++ intros Hc Hfl. inversion Hfl; subst. auto.
           ++ intros Q. destruct (Q2 (Q1 Q)). split; auto.
        -- right. split; [auto|]. split; [auto|]. split; [intros Q0; apply Q, Q1; exact Q0|auto].
      * assert (NQ : ~ quiet st (mv_others ops) w) by (intros [Q|(Q & _)]; [congruence|auto]).
        destruct X as [(v1 & -> & I1)|(-> & U)].
        -- destruct (Next false v1 l bs false eq_refl I1) as (MO2 & T2 & Y); [lia|lia|].
           split; auto. split. { intros P HP HO. eapply touches_trans; [apply T1; auto|apply T2; auto]. }
           destruct Y as [(flags & v' & bs' & clean' & -> & Lf & I2 & A1 & A2 & C2 & Q2)|(-> & _ & Q & U)].
           ++ left. exists (false :: flags), v', bs', clean'. split; auto. split; [simpl; lia|].
              split; [exact I2|]. split; [lia|]. split; [lia|].
              split; [intros _ Hfl; inversion Hfl; discriminate|]. intros Q. exfalso. apply NQ. exact Q.
           ++ right. split; auto.
        -- injection R as <- <-. split; [auto|]. split; [auto|]. right. auto.
    + cbn [mv_op_ok] in Ho. cbn [mv_grows mv_size] in *. destruct (Ho w MO) as (I & M).
      cbn [mv_step] in R. cbn beta iota in R.
      assert (I1 := mv_inv_intact v w (f w) _ _ _ _ I Hi).
      unfold mbind in R. cbn [snd fst] in R.
      destruct (mv_run b e lim size bits ts ops v (f w)) as [o2 w2] eqn:E2.
      destruct (IH v (f w) l bs clean o2 w2 I1 M HB HL HI E2) as (MO2 & T2 & Y).
      assert (Q1 : quiet st (mv_others (MOther f :: ops)) w -> quiet st (mv_others ops) (f w)).
      { cbn [mv_others]. intros [Q|(Q & Q')]; [left; auto|right]. split; [apply Q'; simpl; auto|].
        intros g Hg. apply Q'. simpl. auto. }
      assert (TT : forall P : cell -> Prop, (forall c, mv_cells st name c -> P c) ->
        (forall f0, In f0 (mv_others (MOther f :: ops)) -> forall w, maps_ok w -> touches P w (f0 w)) -> touches P w w2).
      { intros P HP HO. cbn [mv_others] in HO. eapply touches_trans; [apply HO; simpl; auto|]. apply T2; auto.
        intros g Hg. apply HO. simpl. auto. }
      destruct Y as [(flags & v' & bs' & clean' & -> & Lf & I2 & A1 & A2 & C2 & Q2)|(-> & Hfile & Q & U)].
      * cbn in R. unfold mret in R. injection R as <- <-. split; auto. split; auto. left. exists (true :: flags), v', bs', clean'.
        split; auto. split; [simpl; lia|]. split; [exact I2|]. split; auto. split; auto. split.
        -- intros Hc Hfl. inversion Hfl; subst. auto.
        -- intros Q. destruct (Q2 (Q1 Q)). split; auto.
      * injection R as <- <-. split; auto. split; auto. right. split; [auto|]. split; [auto|]. split; [intros Q0; apply Q, Q1; exact Q0|auto].
Qed.

(** * close *)
Lemma bounds_range bs : len (concat bs) < 2 ^ bits ->
  Forall (fun x => 0 <= x < 2 ^ bits) (bounds 0 bs ++ [len (concat bs)]).
Proof.
  intros HB. assert (G : forall a, 0 <= a -> a + len (concat bs) < 2 ^ bits ->
     Forall (fun x => 0 <= x < 2 ^ bits) (bounds a bs ++ [a + len (concat bs)])).
  { clear HB. induction bs as [|x bs IH]; intros a Ha HB; cbn [bounds concat app] in *.
    - rewrite len_nil in *. constructor; auto. lia.
    - rewrite len_app in *. pose proof (len_nonneg x). pose proof (len_nonneg (concat bs)). constructor; [lia|].
      replace (a + (len x + len (concat bs))) with (a + len x + len (concat bs)) by lia. apply IH; lia. }
  apply (G 0); lia.
Qed.

Lemma index_goods offs : Forall (fun x => 0 <= x < 2 ^ bits) offs ->
  exists ms, goods is ms (map (fun x => [x]) offs).
Proof.
  induction 1 as [|x offs Hx _ (ms & F)]; [exists []; constructor|].
  destruct (run_sets_good b e is [(0%nat, x)] Hwi) with (m := zeros size) (t := @nil Z) (r := zero_record is) as (m & _ & G).
  - constructor; [|constructor]. subst is. cbn. split; [lia|]. unfold in_range. cbn. lia.
  - constructor.
  - apply good_zero; auto.
  - exists (m :: ms). constructor; auto.
Qed.

Lemma index_bytes_exist offs : Forall (fun x => 0 <= x < 2 ^ bits) offs ->
  exists Di, array_of is Di (map (fun x => [x]) offs).
Proof. intros H. destruct (index_goods offs H) as (ms & G). exists (concat ms), ms. split; auto. apply goods_encodes; auto. Qed.

Lemma index_array offs Di : Forall (fun x => 0 <= x < 2 ^ bits) offs ->
  array_of is Di (map (fun x => [x]) offs) ->
  records is Di = map (fun x => [x]) offs /\ bytes_ok Di /\ len Di = Z.of_nat (length offs) * size.
Proof.
  intros H A. destruct (index_goods offs H) as (ms & G).
  assert (Di = concat ms) as ->.
  { eapply array_fun; [exact Hwi|exact A|]. exists ms. split; auto. apply goods_encodes; auto. }
  split; [apply goods_records; auto|]. split; [eapply goods_bytes; eauto|]. rewrite (goods_len _ _ _ G), map_length. reflexivity.
Qed.

Definition mv_finished (bs : list (list Z)) (w' : world) (iv d : slice) : Prop :=
  slice_ok iv /\ len (sl_mem iv) = sl_len iv + 8 /\ sl_len iv = (Z.of_nat (length bs) + 1) * size /\
  array_of is (sl_bytes iv) (map (fun x => [x]) (bounds 0 bs ++ [len (concat bs)])) /\
  records is (sl_bytes iv) = map (fun x => [x]) (bounds 0 bs ++ [len (concat bs)]) /\
  slice_ok d /\ len (sl_mem d) = sl_len d + 8 /\ sl_bytes d = concat bs /\
  stored st name schema (concat bs) w' /\ stored st (index_name name) (index_schema schema) (sl_bytes iv) w'.

(** The disk state when close has not worked. *)
Definition mv_left (bs : list (list Z)) (w' : world) : Prop :=
  exists Di, array_of is Di (map (fun x => [x]) (bounds 0 bs ++ [len (concat bs)])) /\
    unfinished st (index_name name) (index_schema schema) Di w' /\ unfinished st name schema (concat bs) w'.
Definition mv_closed (bs : list (list Z)) (clean : bool) (w w' : world) (o : outcome (result (view * slice) rs_error)) : Prop :=
  (* an I/O failure *)
  (is_file st = true /\ w_faults w <> [] /\
    (o = Panic \/ o = Crash) /\ mv_left bs w') \/
  (* the index is damaged by an earlier one *)
  (clean = false /\ o = Panic /\ mv_left bs w') \/
  (* files larger than the address space *)
  (clean = false /\ exists n c, (n = name \/ n = index_name name) /\ bytes_at (cell_at st n) w' = Some c /\ isize_max < len c) \/
  (exists r, o = Ret r /\
    (forall iv d, r = Ok (iv, d) -> mv_finished bs w' iv d) /\
    (forall x, r = Er x -> mv_left bs w') /\
    (clean = true -> is_file st = false \/ w_faults w = [] -> exists iv d, r = Ok (iv, d))).

Lemma sealed_unfinished D c w n sch : loose D c -> bytes_ok c ->
  bytes_at (cell_at st n) w = Some (sealed D c) -> bytes_at (cell_at st (schema_name n)) w = Some sch ->
  unfinished st n sch D w.
Proof.
  intros L Bc A B. split; auto. exists (sealed D c). split; auto. split; [apply bytes_ok_sealed; auto|].
  right. exists c, (le_bytes 8 (len D)), []. rewrite app_nil_r. split; auto. split; auto. apply sealed_partial; auto.
Qed.

Lemma mv_close_cases v w l bs clean o w' : inv v w (bounds 0 bs) l bs clean -> maps_ok w -> mv_schema_ok st schema ->
  len (concat bs) < 2 ^ bits -> len (concat bs) + 16 <= isize_max -> (Z.of_nat (length bs) + 1) * size + 16 <= isize_max ->
  mv_close b e lim size bits v w = (o, w') ->
  touches (mv_cells st name) w w' /\ calm w w' /\ maps_ok w' /\ mv_closed bs clean w w' o.
Proof.
  intros Hi MO Sok HB HL HI R. pose proof Hwi as (Hpos & _). change (s_size (index_struct size bits)) with size in Hpos.
  assert (Soki := index_schema_ok _ _ Sok). destruct Sok as (Sok & _).
  destruct (index_cells st name Hn) as ((NC1 & NC2) & (NC3 & NC4)).
  assert (Mc1 : forall c, cells_of st name c -> mv_cells st name c) by (intros; left; auto).
  assert (Mc2 : forall c, cells_of st (index_name name) c -> mv_cells st name c) by (intros; right; auto).
  destruct (index_bytes_exist (bounds 0 bs ++ [len (concat bs)])) as (Di & ADi).
  { apply bounds_range; auto. }
  assert (ExD : forall w0, mv_unsealed st name schema w0 -> mv_left bs w0).
  { intros w0 (U1 & U2). exists Di. split; auto. split; apply unsealed_unfinished; auto. }
  unfold mv_close in R. unfold mbind at 1 in R.
  destruct (mv_add_to_index b e lim size bits v w) as [o1 w1] eqn:E1.
  destruct (mv_index_cases b e lim size bits ts st name schema Hwi Hn v w _ l bs clean o1 w1 Hi HB ltac:(lia)
    ltac:(rewrite bounds_length; lia) E1) as (S1 & X).
  assert (SS1 := eq_mono _ _ _ _ _ (mv_cells_index st name) S1).
  assert (MO1 : maps_ok w1) by (eapply maps_ok_caches; [apply S1|auto]).
  destruct X as [(v1 & -> & _ & I1)|(Hfile & Hf & [(k & v1 & -> & I1)|(-> & U)])].
  2:{ assert (Op : is_open (mv_handle v1) = true).
      { destruct I1 as (? & ? & ? & ? & ? & ? & _ & _ & _ & _ & _ & _ & Hw & _). eapply writing_open; eauto. }
      unfold mv_drop, mbind in R. rewrite Op, orb_true_r in R. unfold mpanic in R. injection R as <- <-.
      split; [apply SS1|]. split; [apply S1|]. split; auto. left. split; auto. split; auto. split; auto.
      apply ExD. eapply mv_inv_unsealed; eauto. }
  2:{ injection R as <- <-. split; [apply SS1|]. split; [apply S1|]. split; auto. left. split; auto. }
  unfold mbind at 1 in R. destruct (mv_flush b v1 w1) as [o2 w2] eqn:E2.
  destruct (mv_flush_cases b size bits ts st name schema Hwf Hn v1 w1 _ l bs clean o2 w2 I1 ltac:(lia) E2) as (S2 & X).
  assert (SS2 := step_trans _ _ _ _ SS1 (eq_mono _ _ _ _ _ (mv_cells_data st name) S2)).
  assert (MO2 : maps_ok w2) by (eapply maps_ok_caches; [apply S2|auto]).
  assert (Fb1 : w_faults w1 <> [] -> w_faults w <> []) by (intros H1 H2; apply H1, S1; auto).
  assert (Fb2 : w_faults w2 <> [] -> w_faults w <> []) by (intros H1 H2; apply H1, SS2; auto).
  destruct X as [(v2 & -> & Ed2 & I2)|(Hfile & Hf & [(k & v2 & -> & I2)|(-> & U)])].
  2:{ assert (Op : is_open (mv_handle v2) = true).
      { destruct I2 as (? & ? & ? & ? & ? & ? & _ & _ & _ & _ & _ & _ & Hw & _). eapply writing_open; eauto. }
      unfold mv_drop, mbind in R. rewrite Op, orb_true_r in R. unfold mpanic in R. injection R as <- <-.
      split; [apply SS2|]. split; [apply SS2|]. split; auto. left. split; auto. split; auto. split; auto.
      apply ExD. eapply mv_inv_unsealed; eauto. }
  2:{ injection R as <- <-. split; [apply SS2|]. split; [apply SS2|]. split; auto. left. split; auto. }
  destruct I2 as (Wi & ri & ci & Wd & rd & cd & Hi2 & D1 & D2 & Bd & Ec & F & Hw & Cl).
  assert (rd = []) as ->.
  { rewrite D1 in Ed2. apply (f_equal (@length Z)) in Ed2. rewrite app_length in Ed2. destruct rd; auto.
    simpl in Ed2. lia. }
  rewrite app_nil_r in Ec. subst Wd.
  assert (Bs := ev_inv_bytes _ _ _ _ _ _ _ _ _ _ Hi2). destruct Bs as (BW & Br & Lr).
  rewrite map_length, app_length, bounds_length in Lr. simpl length in Lr. change (s_size (index_struct size bits)) with size in Lr.
  assert (Gi : exists ms, Wi ++ ri = concat ms /\ goods is ms (map (fun x => [x]) (bounds 0 bs ++ [len (concat bs)]))).
  { destruct Hi2 as (_ & _ & _ & G & _). exact G. }
  destruct Gi as (ms & Ems & G).
  assert (ADi2 : array_of is (Wi ++ ri) (map (fun x => [x]) (bounds 0 bs ++ [len (concat bs)]))).
  { exists ms. split; auto. apply goods_encodes. auto. }
  assert (Bci : bytes_ok ci) by apply Hi2.
  assert (Li : loose (Wi ++ ri) (ci ++ ri)).
  { apply loose_write. destruct Hi2 as (_ & _ & _ & _ & H). eapply writing_loose; eauto. }
  unfold mbind at 1 in R. destruct (ev_close b e (mv_index v2) w2) as [o3 w3] eqn:E3.
  destruct (ev_close_cases b e st _ _ _ _ w2 _ Wi ri ci o3 w3 Hi2 MO2 Soki ltac:(nia) E3) as (T3 & Cm3 & MO3 & X).
  assert (TT3 : touches (mv_cells st name) w w3).
  { eapply touches_trans; [apply SS2|]. eapply touches_mono; [exact Mc2|exact T3]. }
  assert (CC3 : calm w w3) by (intros H; apply Cm3, SS2; auto).
  assert (Hw3 : writing st name schema (mv_handle v2) w3 (concat bs) cd).
  { eapply writing_touches; [exact T3| | |exact Hw]; auto. }
  assert (Fb3 : w_faults w3 <> [] -> w_faults w <> []) by (intros H1 H2; apply H1, CC3; auto).
  assert (Op3 : is_open (mv_handle v2) = true) by (eapply writing_open; eauto).
  (* the index is closed: the data follows *)
  assert (Ud3 : unfinished st name schema (concat bs) w3) by (apply unsealed_unfinished; eapply writing_unsealed; eauto).
  destruct X as [(Hfile & Hf & Ho & U)|(Bi & Bis & Fi & Fis & X)].
  { assert (ML : mv_left bs w3) by (exists (Wi ++ ri); auto).
    destruct Ho as [-> | ->]; injection R as <- <-; split; auto; split; auto; split; auto; left; auto. }
  assert (ML3 : mv_left bs w3).
  { exists (Wi ++ ri). split; auto. split; auto. eapply sealed_unfinished; eauto. apply bytes_ok_app. auto. }
  assert (Small : clean = true -> len (ci ++ ri) + 8 <= isize_max /\ len cd + 8 <= isize_max /\
     ci ++ ri = zeros 8 ++ Wi ++ ri /\ cd = zeros 8 ++ concat bs).
  { intros Hc. destruct (Cl Hc) as (-> & ->). rewrite !len_app. change (len (zeros 8)) with 8. rewrite <- app_assoc.
    split; [nia|]. split; [lia|]. auto. }
  assert (Big : forall n c, n = name \/ n = index_name name -> bytes_at (cell_at st n) w' = Some c -> isize_max < len c ->
     clean = false -> mv_closed bs clean w w' o).
  { intros n c H1 H2 H3 H4. right. right. left. split; auto. exists n, c. auto. }
  destruct (Z_le_gt_dec (len (ci ++ ri) + 8) isize_max) as [Si|Si].
  2:{ assert (Hcl : clean = false) by (destruct clean; auto; destruct Small as (? & _); auto; lia).
      assert (Keep : forall wx, touches (cells_of st name) w3 wx -> wx = w' -> mv_closed bs clean w w' o).
      { intros wx Tx ->. apply (Big (index_name name) (sealed (Wi ++ ri) (ci ++ ri))); auto.
        - erewrite bytes_at_touches; [exact Bi|exact Tx|]. auto.
        - rewrite sealed_len by auto. lia. }
      destruct o3 as [[iv|x]| | |].
      - unfold mbind at 1 in R. destruct (handle_close b e (mv_handle v2) w3) as [o4 w4] eqn:E4.
        assert (Dok : data_ok (concat bs)) by (split; [eapply buckets_bytes; eauto|lia]).
        destruct (handle_close_cases _ _ _ _ _ _ _ _ _ _ _ Hw3 MO3 Sok Dok Bd E4) as (T4 & Cm4 & MO4 & _).
        assert (w' = w4).
        { destruct o4 as [[r h']| | |]; try (injection R as <- <-; auto; fail).
          unfold handle_drop, mbind in R. cbn in R. destruct (is_open h'); cbn in R; [injection R as <- <-; auto|].
          destruct r as [?|?]; unfold mret in R; injection R as <- <-; auto. }
        subst w4. split; [eapply touches_trans; [exact TT3|eapply touches_mono; [exact Mc1|exact T4]]|].
        split; [intros H; apply Cm4, CC3; auto|]. split; auto. eapply Keep; eauto.
      - unfold handle_drop, mbind in R. rewrite Op3 in R. cbn in R. unfold mpanic in R. injection R as <- <-.
        split; auto. split; auto. split; auto. right. left. auto.
      - injection R as <- <-. split; auto. split; auto. split; auto. eapply Keep; [apply touches_refl|auto].
      - injection R as <- <-. split; auto. split; auto. split; auto. eapply Keep; [apply touches_refl|auto].
      - injection R as <- <-. split; auto. split; auto. split; auto. eapply Keep; [apply touches_refl|auto]. }
  destruct X as [(r & -> & Rok & Rq)|X]; [|lia].
  destruct r as [iv|x].
  2:{ unfold handle_drop, mbind in R. rewrite Op3 in R. cbn in R. unfold mpanic in R. injection R as <- <-.
      split; auto. split; auto. split; auto. destruct clean; [|right; left; auto].
      left. destruct (Small eq_refl) as (_ & _ & Sc & _).
      assert (NX : is_file st = false \/ w_faults w2 = [] -> False).
      { intros H. destruct (Rq H Sc) as (? & ?). discriminate. }
      split; [destruct (is_file st); auto; exfalso; auto|]. split; auto. }
  destruct (Rok iv eq_refl Si) as (Eiv & Ese & Siv & Miv).
  assert (Sti : stored st (index_name name) (index_schema schema) (sl_bytes iv) w3).
  { rewrite Eiv. rewrite Ese in Bi, Fi. split; auto. }
  unfold mbind at 1 in R. destruct (handle_close b e (mv_handle v2) w3) as [o4 w4] eqn:E4.
  assert (Dok : data_ok (concat bs)) by (split; [eapply buckets_bytes; eauto|lia]).
  destruct (handle_close_cases _ _ _ _ _ _ _ _ _ _ _ Hw3 MO3 Sok Dok Bd E4) as (T4 & Cm4 & MO4 & Y).
  assert (w' = w4).
  { destruct o4 as [[r h']| | |]; try (injection R as <- <-; auto; fail).
    unfold handle_drop, mbind in R. cbn in R. destruct (is_open h'); cbn in R; [injection R as <- <-; auto|].
    destruct r as [?|?]; unfold mret in R; injection R as <- <-; auto. }
  subst w4. assert (TT4 : touches (mv_cells st name) w w') by (eapply touches_trans; [exact TT3|eapply touches_mono; [exact Mc1|exact T4]]).
  assert (CC4 : calm w w') by (intros H; apply Cm4, CC3; auto).
  assert (Sti4 : stored st (index_name name) (index_schema schema) (sl_bytes iv) w').
  { eapply stored_touches; [exact T4| | |exact Sti]; auto. }
  assert (Ui4 : unfinished st (index_name name) (index_schema schema) (Wi ++ ri) w').
  { eapply unfinished_touches; [exact T4| | |]; auto. eapply sealed_unfinished; eauto. apply bytes_ok_app. auto. }
  assert (Ld := writing_loose _ _ _ _ _ _ _ Hw3).
  split; auto. split; auto. split; auto.
  destruct Y as [(Hfile & Hf & Y & (c1 & Bp & Cc) & Bsc)|(Bd4 & Bsc & Fd1 & Fd2 & Y)].
  - left. split; auto. split; auto.
    assert (ML4 : mv_left bs w').
    { exists (Wi ++ ri). split; auto. split; auto.
      split; auto. exists c1. split; auto. apply closing_unfinished with (c := cd); auto. }
    destruct Y as [(k & h' & -> & Op)| ->].
    + unfold handle_drop, mbind in R. cbn in R. rewrite Op in R. cbn in R. unfold mpanic in R. injection R as <-. auto.
    + injection R as <-. auto.
  - assert (ML4 : mv_left bs w').
    { exists (Wi ++ ri). split; auto. split; auto. eapply sealed_unfinished; eauto. }
    destruct Y as [(-> & Hfile & Hf)|[(r & h' & -> & Op & Rok4 & Rq4)|Hbig]].
    + injection R as <-. left. auto.
    + unfold handle_drop, mbind in R. cbn in R. rewrite Op in R. cbn in R.
      destruct (Z_le_gt_dec (len cd + 8) isize_max) as [Sd|Sd].
      2:{ apply (Big name (sealed (concat bs) cd)); auto; [rewrite sealed_len by auto; lia|].
          destruct clean; auto. destruct Small as (_ & ? & _); auto; lia. }
      right. right. right. exists (match r with Er x => Er x | Ok d => Ok (iv, d) end).
      split. { destruct r; unfold mret in R; injection R as <-; auto. }
      split.
      * intros iv0 d0 Er. destruct r as [d|]; [|discriminate]. injection Er as <- <-.
        destruct (Rok4 d eq_refl Sd) as (Ed & Esd & Sld & Md).
        split; auto. split; auto. split. { rewrite <- (len_sl_bytes iv Siv), Eiv, len_app. lia. }
        split; [rewrite Eiv; auto|]. split; [rewrite Eiv, Ems; apply goods_records; auto|].
        split; auto. split; auto. split; auto. split; auto.
        rewrite Esd in Bd4, Fd1. split; auto.
      * split; [auto|]. intros Hc Q. destruct (Small Hc) as (_ & _ & _ & Sc).
        destruct Rq4 as (d & ->); auto. { destruct Q as [Q|Q]; auto. } eauto.
    + apply (Big name (sealed (concat bs) cd)); auto; [rewrite sealed_len by auto; lia|].
      destruct clean; auto. destruct Small as (_ & ? & _); auto; lia.
Qed.

(** * create *)
Lemma create_handle_ready n' sch w h w' : at_end st n' w -> start st n' w = [] ->
  at_end st (schema_name n') w -> start st (schema_name n') w = [] ->
  create_handle b e st n' sch w = (Ret (Ok h), w') -> w_faults w = [] ->
  forall n, ready st n w -> ready st n w'.
Proof.
  intros A1 A2 A3 A4 R Hf n Rn. unfold create_handle, mtry, mbind in R.
  destruct (create_output_stream st (schema_name n') w) as [o1 w1] eqn:E1.
  apply create_output_stream_cases in E1.
  destruct E1 as [(s1 & -> & C1 & S1 & P1 & Rd1)|(_ & _ & _ & [(k & ->)| ->] & _)]; try discriminate.
  specialize (P1 A3). rewrite A4 in P1.
  destruct (write_schema sch s1 w1) as [o2 w2] eqn:E2.
  apply (write_schema_cases sch s1 w1 []) in E2; [|exact P1]. destruct E2 as (S2 & X2).
  assert (o2 = Ret (Ok tt)) as ->.
  { destruct o2 as [[[]|]| | |]; try discriminate. auto. }
  destruct (create_output_stream st n' w2) as [o3 w3] eqn:E3.
  apply create_output_stream_cases in E3.
  destruct E3 as [(s3 & -> & C3 & S3 & P3 & Rd3)|(_ & _ & _ & [(k & ->)| ->] & _)]; try discriminate.
  assert (T12 : touches (eq (cell_at st (schema_name n'))) w w2).
  { eapply touches_trans; [apply S1|]. rewrite <- C1. apply S2. }
  assert (Aed : at_end st n' w2).
  { eapply at_end_touches; [exact T12| |auto]. apply cell_schema. }
  assert (St2 : start st n' w2 = []).
  { rewrite <- A2. destruct st as [id base|id base]; auto. simpl.
    destruct T12 as (T12 & _). destruct (T12 id (res_key (MemStorage id base) n')) as (-> & _); auto.
    apply (cell_schema (MemStorage id base) n'). }
  specialize (P3 Aed). rewrite St2 in P3.
  unfold handle_try_new in R.
  apply (stry_puts _ _ s3 w3 [] _ _ w' (write_size_puts b e 0) P3) in R.
  destruct (Rd1 Hf n Rn) as (Rn1 & D1).
  assert (Rn2 : ready st n w2) by (eapply ready_wstep; [exact S2|exact D1|exact Rn1]).
  assert (Hf2 : w_faults w2 = []) by (apply S2, S1; auto).
  destruct (Rd3 Hf2 n Rn2) as (Rn3 & D3).
  destruct R as [(s4 & w4 & S4 & C4 & P4 & R)|(S4 & Cf & Fo & _)].
  - injection R as _ <-. eapply ready_wstep; [exact S4|exact D3|exact Rn3].
  - destruct Fo as [(k & Fo)|Fo]; discriminate.
Qed.

Lemma unused_touches P n w w' : touches P w w' -> ~ P (cell_at st n) -> unused st n w -> unused st n w'.
Proof.
  intros (A1 & A2 & A3 & _) N. destruct st as [id base|id base]; simpl in *.
  - destruct (A1 id _ N) as (-> & ->). auto.
  - rewrite A3; auto.
Qed.

Lemma create_mv_cases w o w' : mv_fresh st name w ->
  create_multi_vector b e st name schema w = (o, w') ->
  step (mv_cells st name) w w' /\
  ((exists v, o = Ret (Ok v) /\ inv v w' [] [] [] true) \/
   (is_file st = true /\ (failed o \/ o = Panic) /\ (w_faults w = [] -> ~ mv_unblocked st name w) /\
    (create_progress st (index_name name) (index_schema schema) w w' /\ touches (cells_of st (index_name name)) w w' \/
     unsealed st (index_name name) (index_schema schema) w' /\ create_progress st name schema w w'))).
Proof.
  intros (F1 & F2) R. destruct (index_cells st name Hn) as ((NC1 & NC2) & (NC3 & NC4)).
  unfold create_multi_vector in R. unfold mtry at 1, mbind at 1 in R.
  destruct (create_external_vector b e st (index_name name) (index_schema schema) w) as [o1 w1] eqn:E1.
  destruct (create_ev_cases b e st _ _ is w o1 w1 F2 E1) as (S1 & X).
  assert (SS1 : step (mv_cells st name) w w1) by (eapply step_mono; [|exact S1]; intros c Hc; right; exact Hc).
  destruct X as [(v & -> & I1)|(Hfile & Fo & N & P)].
  2:{ destruct Fo as [(k & ->)| ->]; cbn in R; unfold mret in R; injection R as <- <-; split; auto; right;
        (split; [auto|]; split; [left; unfold failed; eauto|]; split; [|left; split; [auto|apply S1]]);
        intros Hf (_ & U); exact (N Hf U). }
  cbn beta iota in R. unfold mbind at 1 in R.
  assert (F1' : fresh_name st name w1) by (split; (eapply unused_touches; [apply S1| |apply F1]); auto).
  destruct (fresh_uncached _ _ _ F1') as (A1 & A2 & A3 & A4 & A5 & A6).
  destruct (create_handle b e st name schema w1) as [o2 w2] eqn:E2.
  destruct (create_handle_cases _ _ _ _ _ _ _ _ A1 A2 A3 A4 A5 A6 E2) as (S2 & X).
  assert (SS2 : step (mv_cells st name) w w2).
  { eapply step_trans; [exact SS1|]. eapply step_mono; [|exact S2]. intros c Hc. left. exact Hc. }
  assert (I2 : ev_inv st (index_name name) (index_schema schema) is v w2 [] [] [] (zeros 8)).
  { eapply ev_inv_touches; [apply S2| | |exact I1]; auto. }
  destruct X as [(h & -> & Hw)|(Hfile & Fo & N & P)].
  - unfold mret in R. injection R as <- <-. split; auto. left. eexists. split; [reflexivity|].
    exists [], [], (zeros 8), [], [], (zeros 8). cbn [mv_new mv_index mv_data mv_flushed mv_handle].
    split; auto. split; [reflexivity|]. split; [reflexivity|]. split; [apply bytes_ok_zeros|]. split; [reflexivity|].
    split; [constructor|]. split; auto.
  - assert (Op : is_open (ev_handle v) = true) by (destruct I2 as (_ & _ & _ & _ & Hw); eapply writing_open; eauto).
    assert (w' = w2 /\ (failed o \/ o = Panic)) as (-> & Fo2).
    { destruct Fo as [(k & ->)| ->].
      - unfold handle_drop, mbind in R. rewrite Op in R. cbn in R. unfold mpanic in R. injection R as <- <-. auto.
      - injection R as <- <-. split; auto. left. unfold failed. auto. }
    split; auto. right. split; auto. split; auto. split.
    + intros Hf ((U1 & U2) & _). apply N; [apply S1; auto|].
      unfold create_external_vector, mtry, mbind in E1.
      destruct (create_handle b e st (index_name name) (index_schema schema) w) as [o0 w0] eqn:E0.
      destruct o0 as [[h0|]| | |]; cbn in E1; unfold mret in E1; try discriminate. injection E1 as E1 <-.
      destruct (fresh_uncached _ _ _ F2) as (B1 & B2 & B3 & B4 & _ & _).
      split; apply (create_handle_ready _ _ _ _ _ B1 B2 B3 B4 E0 Hf); auto.
    + right. split; [eapply ev_inv_unsealed; eauto|].
      assert (T1 : touches (cells_of st (index_name name)) w w1) by apply S1.
      unfold create_progress in *. rewrite <- (bytes_at_touches _ _ _ _ T1 NC1), <- (bytes_at_touches _ _ _ _ T1 NC2). exact P.
Qed.

(** * What a finished multivector shows *)
Lemma shown_buckets bs l pre data : Forall2 (bucket_of ts) bs l -> data = pre ++ concat bs ->
  Forall2 (fun p x => 0 <= fst p <= snd p /\ snd p <= len data /\ bucket_of ts (sublist (fst p) (snd p - fst p) data) x)
    (pairs (bounds (len pre) bs ++ [len data])) l.
Proof.
  intros F. revert pre data. induction F as [|x y bs l B F IH]; intros pre data E.
  - constructor.
  - cbn [concat] in E. specialize (IH (pre ++ x) data ltac:(rewrite E, app_assoc; reflexivity)). rewrite len_app in IH.
    pose proof (len_nonneg pre). pose proof (len_nonneg x). pose proof (len_nonneg (concat bs)).
    assert (Hd : exists r, bounds (len pre + len x) bs ++ [len data] = (len pre + len x) :: r).
    { destruct bs as [|z bs]; cbn [bounds app]; [|eauto]. exists []. f_equal. rewrite E. rewrite !len_app. cbn. rewrite len_nil. lia. }
    destruct Hd as (r & Hr). cbn [bounds app]. rewrite Hr in *. cbn [pairs]. constructor; [|exact IH]. cbn [fst snd].
    split; [lia|]. split; [rewrite E, !len_app; lia|].
    assert (Hs : sublist (len pre) (len pre + len x - len pre) data = x).
    { unfold sublist. rewrite E. replace (Z.to_nat (len pre)) with (length pre) by (unfold len; lia).
      rewrite skipn_app_exact by auto. apply firstn_app_exact. unfold len. lia. }
    rewrite Hs. auto.
Qed.

Lemma hd_sing l : map (hd 0) (map (fun x : Z => [x]) l) = l.
Proof. rewrite map_map. simpl. apply map_id. Qed.

Lemma parts_show bs l iv d : Forall2 (bucket_of ts) bs l -> slice_ok iv -> slice_ok d ->
  records is (sl_bytes iv) = map (fun x => [x]) (bounds 0 bs ++ [len (concat bs)]) -> sl_bytes d = concat bs ->
  mav_shows ts size bits (mkMav iv d) l /\
  offsets size bits (mkMav iv d) = bounds 0 bs ++ [sl_len d].
Proof.
  intros F A1 A6 A5 A8.
  assert (Ld : len (concat bs) = sl_len d) by (rewrite <- (len_sl_bytes d A6), A8; auto).
  assert (O : offsets size bits (mkMav iv d) = bounds 0 bs ++ [sl_len d]).
  { unfold offsets. cbn [ma_index]. fold is. rewrite A5, hd_sing, Ld. auto. }
  split; auto. split; [split; auto|]. split; [rewrite O; destruct (bounds 0 bs); discriminate|].
  rewrite O. cbn [ma_data]. rewrite A8. rewrite <- Ld. exact (shown_buckets bs l [] (concat bs) F eq_refl).
Qed.

Lemma finished_shows bs l w' iv d : Forall2 (bucket_of ts) bs l -> mv_finished bs w' iv d ->
  mav_shows ts size bits (mkMav iv d) l /\
  offsets size bits (mkMav iv d) = bounds 0 bs ++ [sl_len d].
Proof. intros F (A1 & A2 & A3 & _ & A5 & A6 & A7 & A8 & _). apply parts_show; auto. Qed.

Lemma bounds_sorted bs : forall a r, 0 <= a -> r = a + len (concat bs) ->
  hd r (bounds a bs) = a /\ Forall (fun p => fst p <= snd p) (pairs (bounds a bs ++ [r])).
Proof.
  induction bs as [|x bs IH]; intros a r Ha ->.
  - split; [cbn [hd bounds concat]; rewrite len_nil; lia|constructor].
  - cbn [concat]. rewrite len_app. pose proof (len_nonneg x). pose proof (len_nonneg (concat bs)).
    destruct (IH (a + len x) (a + (len x + len (concat bs))) ltac:(lia) ltac:(lia)) as (E & F).
    split; [reflexivity|]. cbn [bounds app].
    assert (Hd : exists q, bounds (a + len x) bs ++ [a + (len x + len (concat bs))] = (a + len x) :: q).
    { destruct (bounds (a + len x) bs) as [|z q]; cbn [hd] in E; cbn [app]; [rewrite E; eauto|subst z; eauto]. }
    destruct Hd as (q & Hq). rewrite Hq in *. cbn [pairs]. constructor; auto. cbn. lia.
Qed.

(** * Whole sessions *)
Lemma mv_session_ok ops w v w1 flags v' w2 iv d w3 :
  mv_schema_ok st schema -> maps_ok w -> mv_fresh st name w -> Forall (mv_op_ok st name ts) ops -> mv_fits size bits ts ops ->
  create_multi_vector b e st name schema w = (Ret (Ok v), w1) ->
  mv_run b e lim size bits ts ops v w1 = (Ret (flags, v'), w2) ->
  mv_close b e lim size bits v' w2 = (Ret (Ok (iv, d)), w3) ->
  (Forall (eq true) flags \/
   forall n c, n = name \/ n = index_name name -> bytes_at (cell_at st n) w3 = Some c -> len c <= isize_max) ->
  length flags = length ops /\ maps_ok w3 /\
  exists bs, Forall2 (bucket_of ts) bs (buckets ts (mv_kept ops flags)) /\ mv_finished bs w3 iv d /\
    len (concat bs) <= mv_size ts ops /\ Z.of_nat (length bs) <= mv_grows ops.
Proof.
  intros Sok MO F Ops (HB & HL & HI) C R Cl Hd. pose proof Hwi as (Hpos & _). change (s_size (index_struct size bits)) with size in Hpos.
  destruct (create_mv_cases w _ w1 F C) as (S1 & X).
  destruct X as [(v0 & E0 & I1)|(_ & [[(k & Fo)|Fo]|Fo] & _)]; try discriminate. injection E0 as <-.
  assert (MO1 : maps_ok w1) by (eapply maps_ok_caches; [apply S1|auto]).
  destruct (mv_run_cases ops Ops v w1 [] [] true _ w2 I1 MO1 ltac:(simpl; rewrite len_nil; lia)
    ltac:(simpl; rewrite len_nil; lia) ltac:(simpl; lia) R) as (MO2 & _ & X).
  destruct X as [(fl & v1 & bs & clean & E1 & Lf & I2 & A1 & A2 & C2 & _)|(E1 & _)]; [|discriminate].
  injection E1 as <- <-. simpl app in I2. simpl concat in A1. rewrite len_nil in A1. simpl length in A2.
  destruct (mv_close_cases v' w2 _ bs clean _ w3 I2 MO2 Sok ltac:(lia) ltac:(lia) ltac:(nia) Cl) as (_ & _ & MO3 & X).
  split; auto. split; auto. exists bs. split. { destruct I2 as (? & ? & ? & ? & ? & ? & _ & _ & _ & _ & _ & F2 & _). exact F2. }
  split; [|lia].
  destruct X as [(_ & _ & [X|X] & _)|[(_ & X & _)|[(Hc & n & c & Hnn & Bc & Big)|(r & Er & Rf & _)]]]; try discriminate.
  - exfalso. destruct Hd as [Hd|Hd]; [rewrite C2 in Hc by auto; discriminate|]. specialize (Hd n c Hnn Bc). lia.
  - injection Er as <-. apply Rf. auto.
Qed.

Lemma mv_progress ops w :
  mv_schema_ok st schema -> maps_ok w -> mv_fresh st name w -> mv_unblocked st name w -> Forall (mv_op_ok st name ts) ops ->
  mv_fits size bits ts ops -> quiet st (mv_others ops) w ->
  exists v w1 flags v' w2 iv d w3,
    create_multi_vector b e st name schema w = (Ret (Ok v), w1) /\
    mv_run b e lim size bits ts ops v w1 = (Ret (flags, v'), w2) /\ Forall (eq true) flags /\
    mv_close b e lim size bits v' w2 = (Ret (Ok (iv, d)), w3).
Proof.
  intros Sok MO F Un Ops (HB & HL & HI) Q. pose proof Hwi as (Hpos & _). change (s_size (index_struct size bits)) with size in Hpos.
  destruct (create_multi_vector b e st name schema w) as [o1 w1] eqn:C.
  destruct (create_mv_cases w _ w1 F C) as (S1 & X).
  destruct X as [(v & -> & I1)|(Hfile & _ & N & _)].
  2:{ exfalso. destruct Q as [Q|(Q & _)]; [congruence|]. apply (N Q Un). }
  assert (MO1 : maps_ok w1) by (eapply maps_ok_caches; [apply S1|auto]).
  assert (Q1 : quiet st (mv_others ops) w1).
  { destruct Q as [Q|(Q & Q')]; [left; auto|right; split; auto]. apply S1; auto. }
  destruct (mv_run b e lim size bits ts ops v w1) as [o2 w2] eqn:R.
  destruct (mv_run_cases ops Ops v w1 [] [] true _ w2 I1 MO1 ltac:(simpl; rewrite len_nil; lia)
    ltac:(simpl; rewrite len_nil; lia) ltac:(simpl; lia) R) as (MO2 & _ & X).
  destruct X as [(flags & v' & bs & clean & -> & Lf & I2 & A1 & A2 & C2 & Q2)|(_ & _ & NQ & _)]; [|contradiction].
  destruct (Q2 Q1) as (Fl & Ff). simpl app in I2. simpl concat in A1. rewrite len_nil in A1. simpl length in A2.
  destruct (mv_close b e lim size bits v' w2) as [o3 w3] eqn:Cl.
  destruct (mv_close_cases v' w2 _ bs clean _ w3 I2 MO2 Sok ltac:(lia) ltac:(lia) ltac:(nia) Cl) as (_ & _ & MO3 & X).
  rewrite (C2 eq_refl Fl) in X.
  assert (NF : is_file st = true -> w_faults w2 <> [] -> False) by (intros A B; apply B, Ff, A).
  destruct X as [(Hfile & Hf & _)|[(Hc & _)|[(Hc & _)|(r & -> & _ & _ & Rq)]]]; try discriminate; [exfalso; eauto|].
  destruct Rq as (iv & d & ->); auto. { destruct (is_file st); auto. }
  exists v, w1, flags, v', w2, iv, d, w3. split; auto.
Qed.

Lemma mv_session_touches (P : cell -> Prop) ops w o w' :
  mv_schema_ok st schema -> maps_ok w -> mv_fresh st name w -> Forall (mv_op_ok st name ts) ops -> mv_fits size bits ts ops ->
  (forall c, mv_cells st name c -> P c) -> (forall f, In f (mv_others ops) -> forall w, maps_ok w -> touches P w (f w)) ->
  mv_session b e lim size bits ts st name schema ops w = (o, w') -> touches P w w'.
Proof.
  intros Sok MO F Ops (HB & HL & HI) HP HO R. pose proof Hwi as (Hpos & _). change (s_size (index_struct size bits)) with size in Hpos.
  unfold mv_session, mtry, mbind in R.
  destruct (create_multi_vector b e st name schema w) as [o1 w1] eqn:C.
  destruct (create_mv_cases w o1 w1 F C) as (S1 & X).
  assert (T1 : touches P w w1) by (eapply touches_mono; [exact HP|apply S1]).
  assert (MO1 : maps_ok w1) by (eapply maps_ok_caches; [apply S1|auto]).
  destruct X as [(v & -> & I1)|(Hfile & Fo & _)].
  2:{ destruct Fo as [[(k & ->)| ->]| ->]; cbn in R; injection R as <- <-; auto. }
  destruct (mv_run b e lim size bits ts ops v w1) as [o2 w2] eqn:E2.
  destruct (mv_run_cases ops Ops v w1 [] [] true _ w2 I1 MO1 ltac:(simpl; rewrite len_nil; lia)
    ltac:(simpl; rewrite len_nil; lia) ltac:(simpl; lia) E2) as (MO2 & T2 & X).
  specialize (T2 P HP HO).
  destruct X as [(flags & v' & bs & clean & -> & Lf & I2 & A1 & A2 & C2 & Q2)|(-> & _)].
  2:{ injection R as <- <-. eapply touches_trans; eauto. }
  simpl app in I2. simpl concat in A1. rewrite len_nil in A1. simpl length in A2. cbn [snd fst] in R.
  destruct (mv_close b e lim size bits v' w2) as [o3 w3] eqn:Cl.
  destruct (mv_close_cases v' w2 _ bs clean _ w3 I2 MO2 Sok ltac:(lia) ltac:(lia) ltac:(nia) Cl) as (T3 & _).
  assert (w' = w3) by (destruct o3 as [?| | |]; cbn in R; unfold mret in R; injection R as _ <-; auto). subst w3.
  eapply touches_trans; [exact T1|]. eapply touches_trans; [exact T2|]. eapply touches_mono; [exact HP|exact T3].
Qed.

(** The multivector is open as long as it is not closed. *)
Lemma mv_run_open ops w v w1 o w2 :
  maps_ok w -> mv_fresh st name w -> Forall (mv_op_ok st name ts) ops -> mv_fits size bits ts ops ->
  create_multi_vector b e st name schema w = (Ret (Ok v), w1) ->
  mv_run b e lim size bits ts ops v w1 = (o, w2) ->
  mv_unsealed st name schema w2 /\
  ((exists flags v', o = Ret (flags, v') /\ is_open (mv_handle v') = true /\ is_open (ev_handle (mv_index v')) = true) \/
   (o = Crash /\ is_file st = true)).
Proof.
  intros MO F Ops (HB & HL & HI) C R. pose proof Hwi as (Hpos & _). change (s_size (index_struct size bits)) with size in Hpos.
  destruct (create_mv_cases w _ w1 F C) as (S1 & X).
  destruct X as [(v0 & E0 & I1)|(_ & [[(k & Fo)|Fo]|Fo] & _)]; try discriminate. injection E0 as <-.
  assert (MO1 : maps_ok w1) by (eapply maps_ok_caches; [apply S1|auto]).
  destruct (mv_run_cases ops Ops v w1 [] [] true _ w2 I1 MO1 ltac:(simpl; rewrite len_nil; lia)
    ltac:(simpl; rewrite len_nil; lia) ltac:(simpl; lia) R) as (MO2 & _ & X).
  destruct X as [(fl & v1 & bs & clean & -> & Lf & I2 & A1 & A2 & C2 & _)|(-> & Hfile & _ & U)]; [|auto].
  split; [eapply mv_inv_unsealed; eauto|]. left. exists fl, v1. split; auto.
  destruct I2 as (Wi & ri & ci & Wd & rd & cd & (_ & _ & _ & _ & Hwe) & _ & _ & _ & _ & _ & Hw & _).
  split; eapply writing_open; eauto.
Qed.

(** What close can do. *)
Lemma mv_close_outcome ops w v w1 flags v' w2 o w3 :
  mv_schema_ok st schema -> maps_ok w -> mv_fresh st name w -> Forall (mv_op_ok st name ts) ops -> mv_fits size bits ts ops ->
  create_multi_vector b e st name schema w = (Ret (Ok v), w1) ->
  mv_run b e lim size bits ts ops v w1 = (Ret (flags, v'), w2) ->
  mv_close b e lim size bits v' w2 = (o, w3) ->
  (forall n c, n = name \/ n = index_name name -> bytes_at (cell_at st n) w3 = Some c -> len c <= isize_max) ->
  (exists r, o = Ret r) \/ (o = Panic /\ ~ Forall (eq true) flags) \/
  (is_file st = true /\ w_faults w2 <> [] /\ (o = Panic \/
     o = Crash /\ exists bs Di, Forall2 (bucket_of ts) bs (buckets ts (mv_kept ops flags)) /\
       len (concat bs) <= mv_size ts ops /\ Z.of_nat (length bs) <= mv_grows ops /\
       array_of is Di (map (fun x => [x]) (bounds 0 bs ++ [len (concat bs)])) /\
       unfinished st (index_name name) (index_schema schema) Di w3 /\ unfinished st name schema (concat bs) w3)).
Proof.
  intros Sok MO F Ops (HB & HL & HI) C R Cl Hd. pose proof Hwi as (Hpos & _). change (s_size (index_struct size bits)) with size in Hpos.
  destruct (create_mv_cases w _ w1 F C) as (S1 & X).
  destruct X as [(v0 & E0 & I1)|(_ & [[(k & Fo)|Fo]|Fo] & _)]; try discriminate. injection E0 as <-.
  assert (MO1 : maps_ok w1) by (eapply maps_ok_caches; [apply S1|auto]).
  destruct (mv_run_cases ops Ops v w1 [] [] true _ w2 I1 MO1 ltac:(simpl; rewrite len_nil; lia)
    ltac:(simpl; rewrite len_nil; lia) ltac:(simpl; lia) R) as (MO2 & _ & X).
  destruct X as [(fl & v1 & bs & clean & E1 & Lf & I2 & A1 & A2 & C2 & _)|(E1 & _)]; [|discriminate].
  injection E1 as <- <-. simpl app in I2. simpl concat in A1. rewrite len_nil in A1. simpl length in A2.
  destruct (mv_close_cases v' w2 _ bs clean _ w3 I2 MO2 Sok ltac:(lia) ltac:(lia) ltac:(nia) Cl) as (_ & _ & MO3 & X).
  destruct I2 as (? & ? & ? & ? & ? & ? & _ & _ & _ & _ & _ & F2 & _).
  destruct X as [(Hfile & Hf & X)|[(Hc & X & _)|[(Hc & n & c & Hnn & Bc & Big)|(r & Er & Rf & _)]]].
  - right. right. split; auto. split; auto. destruct X as ([X|X] & Di & Y); auto. right. split; auto.
    exists bs, Di. split; [exact F2|]. split; [lia|]. split; [lia|]. exact Y.
  - right. left. split; auto. intros Hfl. rewrite C2 in Hc by auto. discriminate.
  - exfalso. specialize (Hd n c Hnn Bc). lia.
  - left. eauto.
Qed.
(** Summary for an Ok close. *)
Lemma mv_closed_ok ops w v w1 flags v' w2 iv d w3 :
  mv_schema_ok st schema -> maps_ok w -> mv_fresh st name w -> Forall (mv_op_ok st name ts) ops -> mv_fits size bits ts ops ->
  create_multi_vector b e st name schema w = (Ret (Ok v), w1) ->
  mv_run b e lim size bits ts ops v w1 = (Ret (flags, v'), w2) ->
  mv_close b e lim size bits v' w2 = (Ret (Ok (iv, d)), w3) ->
  (Forall (eq true) flags \/
   forall n c, n = name \/ n = index_name name -> bytes_at (cell_at st n) w3 = Some c -> len c <= isize_max) ->
  length flags = length ops /\ maps_ok w3 /\
  mav_shows ts size bits (mkMav iv d) (buckets ts (mv_kept ops flags)) /\
  (let o := offsets size bits (mkMav iv d) in
   hd 1 o = 0 /\ Forall (fun p => fst p <= snd p) (pairs o) /\ last o 0 = sl_len d /\
   length o = S (length (mv_kept ops flags))) /\
  sl_len iv = (Z.of_nat (length (mv_kept ops flags)) + 1) * size /\
  stored st name schema (sl_bytes d) w3 /\ stored st (index_name name) (index_schema schema) (sl_bytes iv) w3 /\
  data_ok (sl_bytes d) /\ data_ok (sl_bytes iv) /\ slice_ok d /\ slice_ok iv.
Proof.
  intros Sok MO F Ops Fit C R Cl Hd. pose proof Hwi as (Hpos & _). change (s_size (index_struct size bits)) with size in Hpos.
  destruct (mv_session_ok ops w v w1 flags v' w2 iv d w3 Sok MO F Ops Fit C R Cl Hd) as (Lf & MO3 & bs & FB & Fin & L1 & L2).
  split; auto. split; auto.
  destruct (finished_shows bs _ w3 iv d FB Fin) as (Sh & O). split; auto.
  destruct Fin as (A1 & A2 & A3 & A4 & A5 & A6 & A7 & A8 & S1 & S2).
  assert (Ld : len (concat bs) = sl_len d) by (rewrite <- (len_sl_bytes d A6), A8; auto).
  assert (Lb : length (mv_kept ops flags) = length bs).
  { apply Forall2_length in FB. unfold buckets in FB. rewrite map_length in FB. congruence. }
  destruct (bounds_sorted bs 0 (sl_len d) ltac:(lia) ltac:(lia)) as (H0 & Hs).
  destruct Fit as (B1 & B2 & B3).
  split.
  { cbn zeta. rewrite O. split; [destruct (bounds 0 bs) eqn:E; cbn [hd app] in *; auto|]. split; auto.
    split; [apply last_last|]. rewrite app_length, bounds_length. cbn [length]. lia. }
  split; [rewrite A3, Lb; auto|]. rewrite <- A8 in S1. split; auto. split; auto.
  split. { split; [apply bytes_ok_firstn; apply A6|]. rewrite A8. lia. }
  split. { split; [apply bytes_ok_firstn; apply A1|]. rewrite len_sl_bytes by auto. nia. }
  auto.
Qed.

Lemma handle_write_open h d w r h' w' : is_open h = true -> handle_write b h d w = (Ret (r, h'), w') -> is_open h' = true.
Proof.
  intros Op R. unfold handle_write in R. unfold is_open in Op. destruct (h_stream h) as [s|]; [|discriminate].
  unfold mbind in R. destruct (write_all s d w) as [[[[u|k] s']| | |] w1]; try discriminate.
  - unfold lift in R. destruct (uadd _ _ _); try discriminate. unfold mret in R. injection R as <- <- <-. reflexivity.
  - unfold mret in R. injection R as <- <- <-. reflexivity.
Qed.

Lemma mv_flush_open v w r v' w' : is_open (mv_handle v) = true ->
  mv_flush b v w = (Ret (r, v'), w') -> is_open (mv_handle v') = true /\ mv_index v' = mv_index v.
Proof.
  intros Op R. unfold mv_flush, mbind, lift in R.
  destruct (usub b (len (mv_data v)) PADDING_SIZE) as [n| | |]; try discriminate.
  destruct (slice_range (whole (mv_data v)) 0 n) as [d| | |]; try discriminate.
  destruct (handle_write b (mv_handle v) (sl_bytes d) w) as [[[[x|k] h]| | |] w0] eqn:E; try discriminate.
  - destruct (uadd b (mv_flushed v) n) as [f| | |]; try discriminate.
    unfold mret in R. injection R as <- <- <-. split; auto. cbn [mv_handle]. eapply handle_write_open; eauto.
  - unfold mret in R. injection R as <- <- <-. split; auto. cbn [mv_handle]. eapply handle_write_open; eauto.
Qed.

Lemma mv_add_to_index_handle v w r v' w' : mv_add_to_index b e lim size bits v w = (Ret (r, v'), w') ->
  mv_handle v' = mv_handle v.
Proof.
  intros R. unfold mv_add_to_index, mbind, lift in R.
  destruct (ev_grow b lim (index_struct size bits) (mv_index v) w) as [[[[p|k] i]| | |] w0]; try discriminate.
  - destruct (uadd b (mv_flushed v) (len (mv_data v))) as [x| | |]; try discriminate.
    destruct (usub b x PADDING_SIZE) as [y| | |]; try discriminate.
    match type of R with context[ev_set ?a ?b1 ?c ?d1 ?f ?g ?h] => destruct (ev_set a b1 c d1 f g h) as [[i'| | |] w4] end; try discriminate.
    unfold mret in R. injection R as <- <- <-. reflexivity.
  - unfold mret in R. injection R as <- <- <-. reflexivity.
Qed.
End Env.

Lemma fresh_read_slice b e id base name expected w c sl :
  w_files w (res_key (FileStorage id base) name) = Some c -> stored_ok c ->
  fresh_read b e base name expected w = Ret (Ok sl) -> slice_ok sl.
Proof.
  intros Bc So R. assert (Q := fresh_read_cases b e base name expected w). rewrite R in Q.
  change (res_key (FileStorage 0 base)) with (res_key (FileStorage id base)) in Q. rewrite Bc in Q.
  unfold fresh_result, on_file in Q.
  destruct c as [|c0 cr] eqn:Ec; [destruct Q as (k & Q); discriminate|]. rewrite <- Ec in *. clear Ec c0 cr.
  destruct (w_files w (res_key (FileStorage id base) (schema_name name))) as [schema|]; [|destruct Q as (k & Q); discriminate].
  destruct schema as [|s0 sr] eqn:Es; [destruct Q as (k & Q); discriminate|]. rewrite <- Es in *. clear Es s0 sr.
  destruct (check_resource_cases b e name expected c schema So) as [(r & E & V & K)|(_ & _ & _ & E)];
    unfold checked in Q; rewrite E in Q; [|discriminate].
  injection Q as <-. apply (K sl eq_refl).
Qed.

(** Names without a dot do not clash with schemas. *)
Lemma no_dot_app a b : no_dot (a ++ b) = no_dot a && no_dot b.
Proof. induction a as [|c a IH]; simpl; auto. rewrite IH. destruct (negb _); auto. Qed.
Lemma no_dot_schema n m : no_dot n = true -> n <> schema_name m.
Proof.
  intros H ->. unfold schema_name in H. rewrite no_dot_app in H. apply andb_prop in H. destruct H as (_ & H). discriminate.
Qed.
Lemma no_dot_index n : no_dot n = true -> no_dot (index_name n) = true.
Proof. intros H. unfold index_name. rewrite no_dot_app, H. reflexivity. Qed.
Lemma no_dot_unrelated n m : no_dot n = true -> no_dot m = true -> n <> m -> unrelated n m.
Proof. intros A B C. split; auto. split; apply no_dot_schema; auto. Qed.

Lemma elsewhere_two st a b f : elsewhere st [a; schema_name a] f -> elsewhere st [b; schema_name b] f ->
  elsewhere st [a; schema_name a; b; schema_name b] f.
Proof.
  intros A B w M. destruct (A w M) as (A1 & A2). destruct (B w M) as (B1 & _). split; auto.
  intros n [<-|[<-|H]]; [apply A1; left; auto|apply A1; right; left; auto|apply B1; exact H].
Qed.
