(** Builders on targets with [W] bits whose calls all succeed, possibly after sizes
    have wrapped: [wsim] is what [sim] of BuilderFacts.v is there. *)
From Verif Require Import Base BaseFacts Codec CodecSpec CodecFacts Structs StructsSpec StructsFacts Views ViewsSpec ViewsFacts.
From Verif Require Import Storage PathFacts StorageSpec StorageFacts StorageMore StorageUse Writers WritersSpec HandleFacts EncodeFacts.
From Verif Require Import ElsewhereFacts ExtVecFacts ExtVecUse MultiViews MultiSpec MultiViewFacts MultiViewUse MultiVecFacts MultiVecUse BufferFacts.
From Verif Require Import Archives ArchiveSpec ArchiveFacts BuilderSpec BuilderFacts BuilderUse.
From Verif Require Import Width WidthFacts WidthWriters WidthVectors WidthFit WidthArchives WidthArchFacts WidthBuilders WidthBuildSpec WidthBuildFacts.
From Verif Require Import WidthRuns WidthRunFacts WidthRunUse.
Local Open Scope list_scope.
Local Open Scope Z_scope.
Local Arguments firstn : simpl never.
Local Arguments skipn : simpl never.

Section Width.
Variable (W : Z).
Hypothesis HW : 8 <= W <= 64.
Variables (b : build) (e : endian) (lim : Z).

(** * Slots *)
Definition wvec_slot st (r : typed_res) (o : vslot) (v : option ext_vec) w : Prop :=
  match o with
  | VUnset => blank st (tr_name r) w
  | VSet _ => True
  | VOpen l => exists v', v = Some v' /\ alive W st (tr_name r) v' w (Z.of_nat (length l) * s_size (tr_struct r))
  | VClosed l => Z.of_nat (length l) * s_size (tr_struct r) + 16 <= 2 ^ W - 1
  end.
Definition wmul_slot st (r : multi_res) (o : mslot) (v : option multi_vec) w : Prop :=
  match o with
  | MUnset => blank st (mr_index r) w /\ blank st (mr_name r) w
  | MOpen l => exists v', v = Some v' /\
      malive W st (mr_name r) v' w (buckets_size (mr_types r) l) (Z.of_nat (length l) * mr_size r)
  | MClosed l => buckets_size (mr_types r) l + 16 <= 2 ^ W - 1 /\ (Z.of_nat (length l) + 1) * mr_size r + 16 <= 2 ^ W - 1
  end.
Definition wbyte_slot st n (o : option (list Z)) w : Prop := o = None -> blank st n w.
Definition wslot (a : adesc) (st : storage) (A : plan) (s : bstate) (sl : slot) (w : world) : Prop :=
  match sl with
  | SSig => True
  | SStruct k => at_slot (nth_error (ad_structs a) k) (fun r => wbyte_slot st (tr_name r) (pl_structs A k) w)
  | SVec k => at_slot (nth_error (ad_vectors a) k) (fun r => wvec_slot st r (pl_vecs A k) (bs_vecs s k) w)
  | SMul k => at_slot (nth_error (ad_multis a) k) (fun r => wmul_slot st r (pl_muls A k) (bs_muls s k) w)
  | SRaw k => at_slot (nth_error (ad_raws a) k) (fun r => wbyte_slot st (rr_name r) (pl_raws A k) w)
  end.
Lemma wvec_intact st r o v w w' : both st (tr_name r) w w' -> wvec_slot st r o v w -> wvec_slot st r o v w'.
Proof.
  intros I. destruct o; simpl; auto.
  - apply blank_intact; auto.
  - intros (v' & E & H). exists v'. split; [exact E|]. eapply alive_intact; [apply I|exact H].
Qed.
Lemma wmul_intact st r o v w w' : mr_index r = index_name (mr_name r) ->
  both st (mr_index r) w w' -> both st (mr_name r) w w' -> wmul_slot st r o v w -> wmul_slot st r o v w'.
Proof.
  intros E I J. destruct o; simpl; auto.
  - intros [A B]. split; eapply blank_intact; eauto.
  - intros (v' & V & L & G & A). exists v'. split; [exact V|]. split; [exact L|]. split.
    + eapply grown_intact; [apply J|exact G].
    + eapply alive_intact; [|exact A]. rewrite <- E. apply I.
Qed.
Lemma wslot_intact file a st A s sl w w' : wf_archive file a ->
  (forall n, In n (slot_names a sl) -> both st n w w') -> wslot a st A s sl w -> wslot a st A s sl w'.
Proof.
  intros Wf I. destruct sl as [|k|k|k|k]; cbn [wslot slot_names] in *; auto.
  - destruct (nth_error (ad_structs a) k); cbn [at_slot opt_list] in *; auto. intros H Hn. eapply blank_intact; [apply I; left; auto|auto].
  - destruct (nth_error (ad_vectors a) k); cbn [at_slot opt_list] in *; auto. apply wvec_intact, I. left; auto.
  - destruct (nth_error (ad_multis a) k) as [r|] eqn:E; cbn [at_slot opt_list] in *; auto.
    apply wmul_intact; [|apply I; simpl; auto|apply I; simpl; auto].
    apply wf_eq in Wf. destruct Wf as (_ & _ & _ & _ & _ & Wm & _). rewrite Forall_forall in Wm.
    apply (Wm r (nth_error_In _ _ E)).
  - destruct (nth_error (ad_raws a) k); cbn [at_slot opt_list] in *; auto. intros H Hn. eapply blank_intact; [apply I; left; auto|auto].
Qed.

(** * Archives *)
Fixpoint wsim (a : adesc) (st : storage) (A : plan) (s : bstate) (w : world) {struct a} : Prop :=
  let 'mkArchive _ _ _ _ _ _ subs := a in
  bs_st s = st /\ (st_id st < w_next w)%nat /\ (forall sl, wslot a st A s sl w) /\
  (fix go (k : nat) (l : list (string * adesc * bool)) : Prop :=
     match l with
     | [] => True
     | (n, a', _) :: l =>
         match pl_subs A k with
         | None => sub_blank st n w
         | Some A' => is_file st = true /\ exists id s', bs_subs s k = Some s' /\
             wsim a' (FileStorage id (path_join (st_base st) n)) A' s' w
         end /\ go (S k) l
     end) O subs.
Definition sub_wsim (st : storage) (A : plan) (s : bstate) (w : world) (k : nat) (x : string * adesc * bool) : Prop :=
  match pl_subs A k with
  | None => sub_blank st (fst (fst x)) w
  | Some A' => is_file st = true /\ exists id s', bs_subs s k = Some s' /\
      wsim (snd (fst x)) (FileStorage id (path_join (st_base st) (fst (fst x)))) A' s' w
  end.
Lemma wsim_eq a st A s w : wsim a st A s w <->
  bs_st s = st /\ (st_id st < w_next w)%nat /\ (forall sl, wslot a st A s sl w) /\
  (forall k x, nth_error (ad_subs a) k = Some x -> sub_wsim st A s w k x).
Proof.
  clear HW. destruct a as [name schema ss vs ms rs subs]. cbn [wsim ad_subs].
  assert (E : forall l i, (fix go (k : nat) (l : list (string * adesc * bool)) : Prop :=
     match l with
     | [] => True
     | (n, a', _) :: l =>
         match pl_subs A k with
         | None => sub_blank st n w
         | Some A' => is_file st = true /\ exists id s', bs_subs s k = Some s' /\
             wsim a' (FileStorage id (path_join (st_base st) n)) A' s' w
         end /\ go (S k) l
     end) i l <-> forall k x, nth_error l k = Some x -> sub_wsim st A s w (i + k) x).
  { intros l; induction l as [|[[n a'] o] l IH]; intros i.
    - split; [intros _ [|k] x H; discriminate H|auto].
    - rewrite IH. split.
      + intros [H H'] [|k] x Hk; cbn [nth_error] in Hk.
        * injection Hk as <-. rewrite Nat.add_0_r. exact H.
        * rewrite <- Nat.add_succ_comm. auto.
      + intros H. split.
        * specialize (H O _ eq_refl). rewrite Nat.add_0_r in H. exact H.
        * intros k x Hk. rewrite Nat.add_succ_comm. apply H. exact Hk. }
  rewrite E. tauto.
Qed.

Lemma wsim_frame file (P : cell -> Prop) a : forall st A s w w', wf_archive file a -> wsim a st A s w -> frame P w w' ->
  (forall c, region st c -> ~ P c) -> wsim a st A s w'.
Proof.
  induction a as [name schema ss vs ms rs subs IH] using adesc_deep_ind. intros st A s w w' Wf.
  rewrite !wsim_eq. intros (E & B & S & U) F N. split; [exact E|]. split; [destruct F as (_ & _ & _ & F); lia|].
  set (a := mkArchive name schema ss vs ms rs subs) in *.
  split.
  - intros sl. eapply wslot_intact; [exact Wf| |apply S]. intros n I. apply slot_part in I.
    assert (V := part_valid _ _ _ Wf I). split; eapply frame_intact; eauto; apply N, region_cell; auto using valid_schema.
  - intros k x Hk. specialize (U k x Hk). unfold sub_wsim in *.
    assert (I := nth_error_In _ _ Hk). destruct (sub_valid _ _ _ Wf I) as [V Wx].
    destruct (pl_subs A k) as [A'|].
    + destruct U as (Fs & id & s' & Es & H). split; [exact Fs|]. exists id, s'. split; [exact Es|].
      rewrite Forall_forall in IH. eapply (IH x I); eauto.
      intros c R. apply N. destruct st as [i base|i base]; [discriminate|]. eapply region_sub; eauto.
    + eapply sub_blank_frame; eauto.
Qed.

(** A step at one slot. *)
Definition wsame_at (a : adesc) st A s A' s' (sl : slot) : Prop :=
  forall w, wslot a st A s sl w -> wslot a st A' s' sl w.
Lemma wlocal_rest file a st A s sl0 w w' : wf_archive file a -> wsim a st A s w ->
  touches (fun c => exists n, In n (slot_names a sl0) /\ cells_of st n c) w w' ->
  frame (region st) w w' /\ (forall sl, sl <> sl0 -> wslot a st A s sl w') /\
  (forall k x, nth_error (ad_subs a) k = Some x -> sub_wsim st A s w' k x).
Proof.
  intros Wf Hs T.
  set (P := fun c => exists n, In n (slot_names a sl0) /\ cells_of st n c) in *.
  assert (F : frame (region st) w w').
  { apply (frame_mono P); [|apply touches_frame; exact T]. intros c (n & I & C).
    eapply region_cells; [|exact C]. eapply part_valid; [exact Wf|]. eapply slot_part; exact I. }
  split; [exact F|]. apply wsim_eq in Hs. destruct Hs as (E & B & S & U). split.
  - intros sl D.
    eapply wslot_intact; [exact Wf| |apply S]. intros n I.
    assert (Np : ~ P (cell_at st n) /\ ~ P (cell_at st (schema_name n))).
    { assert (In_ := slot_part _ _ _ I).
      split; intros (m & Im & C); assert (Imm := slot_part _ _ _ Im);
        assert (D' := slots_disjoint a sl sl0 n m ltac:(apply wf_eq in Wf; tauto) D I Im);
        destruct (unrelated_cells st m n) as [X Y]; eauto using part_valid, part_unrelated. }
    split; eapply touches_intact; eauto; tauto.
  - intros k x Hk. specialize (U k x Hk). unfold sub_wsim in *.
    assert (I := nth_error_In _ _ Hk). destruct (sub_valid _ _ _ Wf I) as [V Wx].
    assert (Np : forall id base, st = FileStorage id base -> forall k, under (path_join base (fst (fst x))) k -> ~ P (CFile k)).
    { intros id base -> k' Uk (m & Im & C). assert (Vm := part_valid _ _ _ Wf (slot_part _ _ _ Im)).
      destruct C as [C|C]; injection C as C.
      - exact (under_sub_res id base _ _ _ V Vm Uk C).
      - exact (under_sub_res id base _ _ _ V (valid_schema _ Vm) Uk C). }
    destruct (pl_subs A k) as [A1|].
    + destruct U as (Fs & id & s1 & Es & H). split; [exact Fs|]. exists id, s1. split; [exact Es|].
      destruct st as [i base|i base]; [discriminate|]. cbn [st_base] in *.
      eapply wsim_frame; [exact Wx|exact H|apply touches_frame; exact T|].
      intros [i' k'|k'] R; simpl in R; [destruct R|]. eapply Np; eauto.
    + destruct st as [i base|i base]; simpl in *; auto. intros k' Uk.
      destruct T as (_ & T & _). rewrite T; [auto|]. eapply Np; eauto.
Qed.
Lemma wlocal_step file a st A s A' s' sl0 w w' : wf_archive file a -> wsim a st A s w ->
  bs_st s' = bs_st s -> bs_subs s' = bs_subs s -> pl_subs A' = pl_subs A ->
  (forall sl, sl <> sl0 -> wsame_at a st A s A' s' sl) ->
  touches (fun c => exists n, In n (slot_names a sl0) /\ cells_of st n c) w w' ->
  wslot a st A' s' sl0 w' ->
  wsim a st A' s' w' /\ frame (region st) w w'.
Proof.
  intros Wf Hs E1 E2 E3 Same T S0. destruct (wlocal_rest _ _ _ _ _ _ _ _ Wf Hs T) as (F & S & U).
  split; [|exact F]. apply wsim_eq in Hs. destruct Hs as (E & B & _). apply wsim_eq.
  split; [congruence|]. split; [destruct F as (_ & _ & _ & F); lia|]. split.
  - intros sl. destruct (slot_eq_dec sl sl0) as [->|D]; [exact S0|]. apply Same; auto.
  - intros k x Hk. specialize (U k x Hk). unfold sub_wsim in *. rewrite E3, E2. exact U.
Qed.

(** A step in a sub-archive. *)
Lemma wsub_rest file a id base A s w w' k x id' : wf_archive file a -> let st := FileStorage id base in
  wsim a st A s w -> nth_error (ad_subs a) k = Some x ->
  let st' := FileStorage id' (path_join base (fst (fst x))) in
  frame (region st') w w' ->
  frame (region st) w w' /\ (forall sl, wslot a st A s sl w') /\
  (forall k2 x2, k2 <> k -> nth_error (ad_subs a) k2 = Some x2 -> sub_wsim st A s w' k2 x2).
Proof.
  intros Wf st Hs Hk st' F. assert (I := nth_error_In _ _ Hk). destruct (sub_valid _ _ _ Wf I) as [V Wx].
  assert (F' : frame (region st) w w').
  { eapply frame_mono; [|exact F]. intros c. apply region_sub. exact V. }
  split; [exact F'|]. apply wsim_eq in Hs. destruct Hs as (E & B & S & U). split.
  - intros sl.
    eapply wslot_intact; [exact Wf| |apply S]. intros n In_. assert (Vn := part_valid _ _ _ Wf (slot_part _ _ _ In_)).
    split; (eapply frame_intact; [exact F|exact B|]); cbn [region cell_at st st']; intros R.
    + exact (under_sub_res id base _ n _ V Vn R eq_refl).
    + exact (under_sub_res id base _ (schema_name n) _ V (valid_schema _ Vn) R eq_refl).
  - intros k2 x2 D Hk2. specialize (U k2 x2 Hk2). assert (I2 := nth_error_In _ _ Hk2).
    destruct (sub_valid _ _ _ Wf I2) as [V2 Wx2]. unfold sub_wsim in *.
    assert (Dn : fst (fst x2) <> fst (fst x)).
    { intros En. apply wf_eq in Wf. destruct Wf as (_ & _ & _ & _ & _ & _ & _ & ND & _).
      apply D. eapply NoDup_nth_error; [exact ND| |].
      - rewrite map_length. apply nth_error_Some. congruence.
      - rewrite !nth_error_map, Hk, Hk2. simpl. congruence. }
    assert (Np : forall k', under (path_join base (fst (fst x2))) k' -> ~ region st' (CFile k')).
    { intros k' U' R. simpl in R. apply Dn. eapply under_sub_disjoint; eauto. }
    destruct (pl_subs A k2) as [A2|].
    + destruct U as (Fs & i2 & s2 & Es & H). split; [exact Fs|]. exists i2, s2. split; [exact Es|].
      eapply wsim_frame; [exact Wx2|exact H|exact F|].
      intros [i' k'|k'] R; [destruct R|]. apply Np. exact R.
    + simpl in *. intros k' U'. destruct F as (_ & F & _). rewrite F; [auto|]. apply Np. exact U'.
Qed.
Lemma wsub_step file a id base A s w w' k x id' A1 s1 : wf_archive file a -> let st := FileStorage id base in
  wsim a st A s w -> nth_error (ad_subs a) k = Some x ->
  let st' := FileStorage id' (path_join base (fst (fst x))) in
  frame (region st') w w' -> wsim (snd (fst x)) st' A1 s1 w' ->
  wsim a st (pl_sub k (Some A1) A) (put_sub k (Some s1) s) w' /\ frame (region st) w w'.
Proof.
  intros Wf st Hs Hk st' F H1. destruct (wsub_rest _ _ _ _ _ _ _ _ _ _ _ Wf Hs Hk F) as (F' & S & U).
  split; [|exact F']. apply wsim_eq in Hs. destruct Hs as (E & B & _). apply wsim_eq.
  split; [exact E|]. split; [destruct F as (_ & _ & _ & F); lia|]. split.
  - intros sl. specialize (S sl). destruct sl; exact S.
  - intros k2 x2 Hk2. destruct (Nat.eq_dec k2 k) as [->|D].
    + unfold sub_wsim, pl_sub, put_sub. cbn [pl_subs bs_subs]. rewrite !nupd_same. split; [reflexivity|].
      rewrite Hk in Hk2. injection Hk2 as <-. exists id', s1. auto.
    + specialize (U k2 x2 D Hk2). unfold sub_wsim, pl_sub, put_sub in *. cbn [pl_subs bs_subs]. rewrite !nupd_other by exact D. exact U.
Qed.


Lemma elements_fit_eq max a : elements_fit max a <->
  Forall (fun r => s_size (tr_struct r) <= max) (ad_vectors a) /\
  Forall (fun r => mr_size r <= max /\ Forall (fun x => s_size (snd x) < max) (mr_types r)) (ad_multis a) /\
  Forall (fun x => elements_fit max (snd (fst x))) (ad_subs a).
Proof.
  clear HW. destruct a as [name schema ss vs ms rs subs]. cbn [elements_fit ad_vectors ad_multis ad_subs].
  assert (E : (fix go (l : list (string * adesc * bool)) : Prop :=
     match l with
     | [] => True
     | (_, a', _) :: l => elements_fit max a' /\ go l
     end) subs <-> Forall (fun x => elements_fit max (snd (fst x))) subs).
  { induction subs as [|[[n a'] o] l IH]; [split; auto|]. rewrite IH. split; [intros []; constructor; auto|intros H; inversion H; auto]. }
  rewrite E. tauto.
Qed.
Definition wsub_fits (max : Z) (A : plan) (k : nat) (x : string * adesc * bool) : Prop :=
  match pl_subs A k with Some A' => writers_fit max (snd (fst x)) A' | None => True end.
Lemma writers_fit_eq max a A : writers_fit max a A <->
  (forall k r, nth_error (ad_vectors a) k = Some r -> writer_fits max r (pl_vecs A k)) /\
  (forall k r, nth_error (ad_multis a) k = Some r -> mul_fits max r (pl_muls A k)) /\
  (forall k x, nth_error (ad_subs a) k = Some x -> wsub_fits max A k x).
Proof.
  clear HW. destruct a as [name schema ss vs ms rs subs]. cbn [writers_fit ad_vectors ad_multis ad_subs].
  assert (E : forall l i, (fix go (k : nat) (l : list (string * adesc * bool)) : Prop :=
     match l with
     | [] => True
     | (_, a', _) :: l =>
         match pl_subs A k with Some A' => writers_fit max a' A' | None => True end /\ go (S k) l
     end) i l <-> forall k x, nth_error l k = Some x -> wsub_fits max A (i + k) x).
  { intros l; induction l as [|[[n a'] o] l IH]; intros i.
    - split; [intros _ [|k] x H; discriminate H|auto].
    - rewrite IH. split.
      + intros [H H'] [|k] x Hk; cbn [nth_error] in Hk.
        * injection Hk as <-. rewrite Nat.add_0_r. exact H.
        * rewrite <- Nat.add_succ_comm. auto.
      + intros H. split.
        * specialize (H O _ eq_refl). rewrite Nat.add_0_r in H. exact H.
        * intros k x Hk. rewrite Nat.add_succ_comm. apply H. exact Hk. }
  rewrite E. tauto.
Qed.

Lemma wbuckets_nonneg ts l : Forall (fun p => 0 <= s_size (snd p)) ts -> 0 <= buckets_size ts l.
Proof.
  intros H. assert (Hs : forall t, 0 <= s_size (v_struct ts t)).
  { intros t. unfold v_struct. destruct (nth_in_or_default t ts (0, mkStruct 0 [])) as [I| ->]; [|cbn; lia].
    rewrite Forall_forall in H. apply (H _ I). }
  assert (Hi : forall x, 0 <= items_size ts x).
  { intros x; induction x as [|y x IH]; cbn [items_size]; [lia|]. specialize (Hs (fst y)). lia. }
  induction l as [|x l IH]; cbn [buckets_size]; [lia|]. specialize (Hi x). lia.
Qed.

(** * One call *)
Ltac wsame := intros sl D ? H; destruct sl as [|j|j|j|j]; try exact H;
  cbn [wslot pl_struct pl_vec pl_mul pl_raw put_vec put_mul pl_structs pl_vecs pl_muls pl_raws bs_vecs bs_muls] in *;
  rewrite ?nupd_other by congruence; try exact H.
Lemma wsim_new a st w : sim a st no_plan (new_bstate st) w -> wsim a st no_plan (new_bstate st) w.
Proof.
  rewrite sim_eq, wsim_eq. intros (E & Hid & S & U). split; [exact E|]. split; [exact Hid|]. split; [|exact U].
  intros sl. specialize (S sl). destruct sl as [|k|k|k|k]; cbn [slot_ok wslot] in *; auto.
  - destruct (nth_error (ad_structs a) k); auto. intros _. exact S.
  - destruct (nth_error (ad_raws a) k); auto. intros _. exact S.
Qed.
Lemma wwrite_slot file a st A s A' sl n schema d r w w' : wf_archive file a -> wsim a st A s w ->
  slot_names a sl = [n] -> maps_ok w ->
  pl_subs A' = pl_subs A -> (forall sl', sl' <> sl -> wsame_at a st A s A' s sl') ->
  write b e st n schema d w = (r, w') -> (forall w, wslot a st A' s sl w) ->
  wsim a st A' s w' /\ frame (region st) w w' /\ maps_ok w'.
Proof.
  intros Wf Hs Hn M E Same R K. assert (X := write_touches _ _ _ _ _ _ _ _ _ R).
  destruct (wlocal_step file a st A s A' s sl w w' Wf Hs eq_refl eq_refl E Same) as [Y Z].
  - eapply touches_mono; [|apply X]. intros c C. exists n. rewrite Hn. split; [left; auto|exact C].
  - apply K.
  - split; [exact Y|]. split; [exact Z|]. eapply step_maps; eauto.
Qed.

Lemma wstep_ok file o : forall a st A s w A' s' w', wf_archive file a -> elements_fit (isize_max_w W) a -> is_file st = file -> maps_ok w ->
  wsim a st A s w -> may file a A o A' -> bstep_w W b e lim a o s w = (Ret (true, s'), w') ->
  wsim a st A' s' w' /\ frame (region st) w w' /\ maps_ok w'.
Proof.
  induction o as [k m|k v|k|k sets|k|k|k items|k|k d|k|k o IH]; intros a st A s w A' s' w' Wf Ef Fl M Hs Hm R;
    inversion Hm; subst; cbn [bstep_w] in R;
    assert (Est : bs_st s = st) by (apply wsim_eq in Hs; tauto); rewrite ?Est in R;
    assert (Ws := Wf); apply wf_eq in Ws; destruct Ws as (_ & _ & _ & Ws & Wv & Wm & Wr & _ & Wu);
    rewrite Forall_forall in Ws, Wv, Wm, Wr, Wu;
    assert (Es := Ef); apply elements_fit_eq in Es; destruct Es as (Fv & Fm & Fs); rewrite Forall_forall in Fv, Fm, Fs;
    match goal with H : nth_error _ _ = Some _ |- _ => assert (I := nth_error_In _ _ H); rename H into Hk end;
    match goal with
    | H : pl_structs _ _ = _ |- _ => rename H into Hp
    | H : pl_vecs _ _ = _ |- _ => rename H into Hp
    | H : pl_muls _ _ = _ |- _ => rename H into Hp
    | H : pl_raws _ _ = _ |- _ => rename H into Hp
    | H : pl_subs _ _ = _ |- _ => rename H into Hp
    end;
    try match goal with
    | H : sets_ok _ _ |- _ => rename H into Hok
    | H : items_ok _ _ |- _ => rename H into Hok
    | H : may _ _ _ _ _ |- _ => match type of Hm with ?T => match type of H with T => fail 1 | _ => rename H into Hok end end
    end;
    rewrite ?Hk in R; cbn [with_some] in R;
    assert (S := Hs); apply wsim_eq in S; destruct S as (_ & Hid & S & U).
  - (* struct *)
    apply bind_ret in R as (x & w1 & R & R'). apply ret_pair in R' as (Ex & -> & ->).
    unfold set_struct in R. replace (_ <=? _) with true in R by (symmetry; apply Z.leb_le; assumption).
    eapply (wwrite_slot _ a st A s _ (SStruct k)); eauto.
    + cbn [slot_names]. rewrite Hk. reflexivity.
    + wsame.
    + intros w0. cbn [wslot]. rewrite Hk. cbn [at_slot pl_struct pl_structs]. rewrite nupd_same. discriminate.
  - (* vector *)
    apply bind_ret in R as (x & w1 & R & R'). apply ret_pair in R' as (Ex & -> & ->).
    eapply (wwrite_slot _ a st A s _ (SVec k)); eauto.
    + cbn [slot_names]. rewrite Hk. reflexivity.
    + wsame.
    + intros w0. cbn [wslot]. rewrite Hk. cbn [at_slot pl_vec pl_vecs]. rewrite nupd_same. exact Logic.I.
  - (* start vector *)
    apply bind_ret in R as (x & w1 & R & R').
    destruct x as [v|x]; apply ret_pair in R' as (Ex & -> & ->); [|discriminate Ex].
    specialize (S (SVec k)). cbn [wslot] in S. rewrite Hk in S. cbn [at_slot] in S. rewrite Hp in S. destruct S as [Fr _].
    destruct (create_ev_cases b e st _ _ (tr_struct r) w _ w1 Fr R) as [T [(v' & E & Hv)|(_ & F & _)]].
    2:{ destruct F as [[kk F]|F]; discriminate F. }
    injection E as <-.
    destruct (wlocal_step (is_file st) a st A s (pl_vec k (VOpen []) A) (put_vec k (Some v) s) (SVec k) w w1 Wf Hs eq_refl eq_refl eq_refl) as [X Y].
    + wsame.
    + eapply touches_mono; [|apply T]. intros c C. exists (tr_name r). cbn [slot_names]. rewrite Hk. split; [left; auto|exact C].
    + cbn [wslot]. rewrite Hk. cbn [at_slot pl_vec pl_vecs put_vec bs_vecs]. rewrite !nupd_same. cbn [wvec_slot].
      exists v. split; [reflexivity|]. destruct Hv as (D & _ & _ & _ & Hw). apply writing_grown in Hw. unfold alive. rewrite D.
      change (len ([] ++ zeros 8)) with 8. pose proof (max_8 W HW). split; [lia|]. exact Hw.
    + split; [exact X|]. split; [exact Y|]. eapply step_maps; eauto.
  - (* grow *)
    specialize (S (SVec k)). cbn [wslot] in S. rewrite Hk in S. cbn [at_slot] in S. rewrite Hp in S. cbn [wvec_slot] in S.
    destruct S as (v & Ev & Hv). rewrite Ev in R. cbn [with_some] in R.
    apply bind_ret in R as (x & w1 & R & R'). apply ret_pair in R' as (Ex & -> & ->).
    destruct x as [fl v1]. cbn [fst snd] in *. subst fl.
    destruct (Wv r I) as [_ (Hpos & _)]. specialize (Fv r I).
    assert (Hsz : 0 <= s_size (tr_struct r) <= isize_max_w W) by lia.
    destruct (alive_step W HW b e lim st _ _ sets v w _ _ v1 w1 Hsz Hv R) as (T & A1).
    destruct (wlocal_step (is_file st) a st A s (pl_vec k (VOpen (l ++ [sets])) A) (put_vec k (Some v1) s) (SVec k) w w1 Wf Hs eq_refl eq_refl eq_refl) as [X Y].
    + wsame.
    + eapply touches_mono; [|apply T]. intros c <-. exists (tr_name r). cbn [slot_names]. rewrite Hk. split; [left; auto|left; auto].
    + cbn [wslot]. rewrite Hk. cbn [at_slot pl_vec pl_vecs put_vec bs_vecs]. rewrite !nupd_same. cbn [wvec_slot].
      exists v1. split; [reflexivity|]. rewrite app_length, Nat2Z.inj_add. cbn [length].
      replace ((_ + Z.of_nat 1) * _) with (Z.of_nat (length l) * s_size (tr_struct r) + s_size (tr_struct r)) by lia. exact A1.
    + split; [exact X|]. split; [exact Y|]. eapply step_maps; eauto.
  - (* close *)
    specialize (S (SVec k)). cbn [wslot] in S. rewrite Hk in S. cbn [at_slot] in S. rewrite Hp in S. cbn [wvec_slot] in S.
    destruct S as (v & Ev & Hv). rewrite Ev in R. cbn [with_some] in R.
    apply bind_ret in R as (x & w1 & R & R'). apply ret_pair in R' as (Ex & -> & ->).
    apply is_ok_true in Ex as [y ->]. destruct (Wv r I) as [_ (Hpos & _)].
    assert (H0 : 0 <= Z.of_nat (length l) * s_size (tr_struct r)) by (apply Z.mul_nonneg_nonneg; lia).
    destruct (alive_close W HW b e _ _ _ _ _ _ _ Hv H0 M R) as (B & T & M1).
    destruct (wlocal_step (is_file st) a st A s (pl_vec k (VClosed l) A) (put_vec k None s) (SVec k) w w1 Wf Hs eq_refl eq_refl eq_refl) as [X Y].
    + wsame.
    + eapply touches_mono; [|apply T]. intros c C0. exists (tr_name r). cbn [slot_names]. rewrite Hk. split; [left; auto|exact C0].
    + cbn [wslot]. rewrite Hk. cbn [at_slot pl_vec pl_vecs put_vec bs_vecs]. rewrite !nupd_same. cbn [wvec_slot]. lia.
    + split; [exact X|]. split; [exact Y|]. exact M1.
  - (* start multi *)
    apply bind_ret in R as (x & w1 & R & R').
    destruct x as [v|x]; apply ret_pair in R' as (Ex & -> & ->); [|discriminate Ex].
    specialize (S (SMul k)). cbn [wslot] in S. rewrite Hk in S. cbn [at_slot] in S. rewrite Hp in S. destruct S as [[Fi _] [Fr _]].
    destruct (Wm r I) as (Wi & En & So & Wis & Wts & Sz). rewrite En in Fi.
    assert (Vn := identifier_valid _ Wi).
    destruct (create_mv_cases b e (mr_size r) (mr_bits r) (mr_types r) st (mr_name r) (mr_schema r) Vn w _ w1 (conj Fr Fi) R)
      as [T [(v' & E & Hv)|(_ & [F|F] & _)]].
    2:{ destruct F as [[kk F]|F]; discriminate F. }
    2:{ discriminate F. }
    injection E as <-.
    destruct (follows_fits _ _ _ w (create_mv_fits b e st (mr_name r) (mr_schema r)) _ _ R) as (_ & Sv & Hh & Si & Hhi & Hni).
    destruct (wlocal_step (is_file st) a st A s (pl_mul k (MOpen []) A) (put_mul k (Some v) s) (SMul k) w w1 Wf Hs eq_refl eq_refl eq_refl) as [X Y].
    + wsame.
    + eapply touches_mono; [|apply T]. intros c C. cbn [slot_names]. rewrite Hk. cbn [opt_list].
      destruct C as [C|C]; [exists (mr_name r)|exists (mr_index r); rewrite En]; split; simpl; auto.
    + cbn [wslot]. rewrite Hk. cbn [at_slot pl_mul pl_muls put_mul bs_muls]. rewrite !nupd_same. cbn [wmul_slot buckets_size].
      exists v. split; [reflexivity|]. pose proof (max_8 W HW). refine (minv_alive W _ _ _ _ _ _ _ _ _ _ _ _ Hv _ _).
      * destruct Sv as (_ & _ & Sv). unfold mheld in Hh. lia.
      * destruct Si as (_ & Si & _). unfold held in Hhi. lia.
    + split; [exact X|]. split; [exact Y|]. eapply step_maps; eauto.
  - (* multi grow *)
    specialize (S (SMul k)). cbn [wslot] in S. rewrite Hk in S. cbn [at_slot] in S. rewrite Hp in S. cbn [wmul_slot] in S.
    destruct S as (v & Ev & Hv). rewrite Ev in R. cbn [with_some] in R.
    apply bind_ret in R as (x & w1 & R & R'). apply ret_pair in R' as (Ex & -> & ->).
    destruct x as [fl v1]. cbn [fst snd] in *. subst fl.
    destruct (Wm r I) as (Wi & En & So & Wis & Wts & Sz). assert (Vn := identifier_valid _ Wi).
    destruct (Fm r I) as (F1 & F2). destruct Wis as (Hpos & _). cbn [s_size index_struct] in Hpos.
    assert (F3 : Forall (fun p => 0 <= s_size (snd p) < isize_max_w W) (mr_types r)).
    { destruct Wts as (Wts & _). rewrite Forall_forall in *. intros x Hx. destruct (Wts x Hx) as (_ & (Q & _)). specialize (F2 x Hx). lia. }
    destruct (malive_step W HW b e lim (mr_size r) (mr_bits r) (mr_types r) st (mr_name r) ltac:(lia) F3 Vn items v w _ _ _ v1 w1 Hv R) as (T & A1).
    destruct (wlocal_step (is_file st) a st A s (pl_mul k (MOpen (l ++ [items])) A) (put_mul k (Some v1) s) (SMul k) w w1 Wf Hs eq_refl eq_refl eq_refl) as [X Y].
    + wsame.
    + eapply touches_mono; [|apply T]. intros c C. cbn [slot_names]. rewrite Hk. cbn [opt_list].
      destruct C as [C|C]; [exists (mr_name r)|exists (mr_index r); rewrite En]; split; simpl; auto.
    + cbn [wslot]. rewrite Hk. cbn [at_slot pl_mul pl_muls put_mul bs_muls]. rewrite !nupd_same. cbn [wmul_slot].
      exists v1. split; [reflexivity|]. rewrite buckets_size_snoc, app_length, Nat2Z.inj_add. cbn [length].
      replace ((_ + Z.of_nat 1) * _) with (Z.of_nat (length l) * mr_size r + mr_size r) by lia. exact A1.
    + split; [exact X|]. split; [exact Y|]. eapply step_maps; eauto.
  - (* multi close *)
    specialize (S (SMul k)). cbn [wslot] in S. rewrite Hk in S. cbn [at_slot] in S. rewrite Hp in S. cbn [wmul_slot] in S.
    destruct S as (v & Ev & Hv). rewrite Ev in R. cbn [with_some] in R.
    apply bind_ret in R as (x & w1 & R & R'). apply ret_pair in R' as (Ex & -> & ->).
    apply is_ok_true in Ex as [y ->].
    destruct (Wm r I) as (Wi & En & So & Wis & Wts & Sz). assert (Vn := identifier_valid _ Wi).
    destruct (Fm r I) as (F1 & F2). destruct Wis as (Hpos & _). cbn [s_size index_struct] in Hpos.
    assert (H0 : 0 <= Z.of_nat (length l) * mr_size r) by (apply Z.mul_nonneg_nonneg; lia).
    assert (H1 : 0 <= buckets_size (mr_types r) l).
    { apply wbuckets_nonneg. destruct Wts as (Wts & _). eapply Forall_impl; [|exact Wts]. intros x (_ & (Q & _)). lia. }
    destruct (malive_close W HW b e lim (mr_size r) (mr_bits r) st (mr_name r) ltac:(lia) Vn v w _ _ _ w1 Hv H1 H0 M R) as (B1 & B2 & T & M1).
    destruct (wlocal_step (is_file st) a st A s (pl_mul k (MClosed l) A) (put_mul k None s) (SMul k) w w1 Wf Hs eq_refl eq_refl eq_refl) as [X Y].
    + wsame.
    + eapply touches_mono; [|apply T]. intros c C0. cbn [slot_names]. rewrite Hk. cbn [opt_list].
      destruct C0 as [C0|C0]; [exists (mr_name r)|exists (mr_index r); rewrite En]; split; simpl; auto.
    + cbn [wslot]. rewrite Hk. cbn [at_slot pl_mul pl_muls put_mul bs_muls]. rewrite !nupd_same. cbn [wmul_slot]. lia.
    + split; [exact X|]. split; [exact Y|]. exact M1.
  - (* raw *)
    apply bind_ret in R as (x & w1 & R & R'). apply ret_pair in R' as (Ex & -> & ->).
    eapply (wwrite_slot _ a st A s _ (SRaw k)); eauto.
    + cbn [slot_names]. rewrite Hk. reflexivity.
    + wsame.
    + intros w0. cbn [wslot]. rewrite Hk. cbn [at_slot pl_raw pl_raws]. rewrite nupd_same. discriminate.
  - (* new sub-archive *)
    apply bind_ret in R as (x & w1 & R & R').
    destruct x as [st'|x]; apply ret_pair in R' as (Ex & -> & ->); [|discriminate Ex].
    destruct st as [id base|id base]; [discriminate|].
    unfold sub_builder in R. apply bind_ret in R as (st2 & w2 & R & R').
    destruct (sub_valid _ _ _ Wf I) as [V Wx]. specialize (U k s0 Hk). unfold sub_wsim in U. rewrite Hp in U. simpl in U.
    unfold subdir, file_new in R. injection R as <- <-.
    match type of R' with builder_new _ _ _ ?st ?wn = _ =>
      assert (Fn : frame (region st) w wn) by (apply (file_new_frame _ (path_join base (fst (fst s0))) w));
      assert (Mn : maps_ok wn)
    end.
    { intros i p L. simpl. unfold nupd. destruct (Nat.eqb i (w_next w)); [discriminate|]. apply M. }
    match type of R' with builder_new _ _ _ ?st ?wn = _ => assert (Un : unused_storage st wn) end.
    { split; [simpl; lia|]. simpl. split; [intros p; rewrite nupd_same; reflexivity|exact U]. }
    destruct (builder_new_ok true b e _ _ _ _ _ Wx (eq_refl : is_file (FileStorage _ _) = true) Mn Un R') as (-> & X & Y & Z).
    destruct (wsub_step true a id base A s w w1 k s0 _ no_plan _ Wf Hs Hk (frame_trans _ _ _ _ Fn Y) (wsim_new _ _ _ X)) as [P Q].
    split; [exact P|]. split; [exact Q|exact Z].
  - (* in a sub-archive *)
    specialize (U k s0 Hk). unfold sub_wsim in U. rewrite Hp in U. destruct U as (Fx & id' & s1 & Es & H1).
    rewrite Es in R. cbn [with_some] in R.
    apply bind_ret in R as ([fl s2] & w1 & R & R'). apply ret_pair in R' as (Ex & -> & ->). cbn [fst snd] in *. subst fl.
    destruct (sub_valid _ _ _ Wf I) as [V Wx]. destruct st as [id base|id base]; [discriminate|].
    destruct (IH _ _ _ _ _ _ _ _ Wx (Fs _ I) (eq_refl : is_file (FileStorage _ _) = true) M H1 Hok R) as (X & Y & Z).
    destruct (wsub_step true a id base A s w w1 k s0 _ _ _ Wf Hs Hk Y X) as [P Q].
    split; [exact P|]. split; [exact Q|exact Z].
Qed.
Lemma wrun_ok file ops : forall a st A s w A' s' w' fl, wf_archive file a -> elements_fit (isize_max_w W) a -> is_file st = file -> maps_ok w ->
  wsim a st A s w -> history file a A ops A' -> brun_w W b e lim a ops s w = (Ret (fl, s'), w') -> Forall (eq true) fl ->
  wsim a st A' s' w'.
Proof.
  induction ops as [|o ops IH]; intros a st A s w A' s' w' fl Wf Ef Fl M Hs Hh R Hf; inversion Hh; subst; cbn [brun_w] in R.
  - unfold mret in R. injection R as _ <- <-. exact Hs.
  - apply bind_ret in R as ([f1 s1] & w1 & R1 & R). apply bind_ret in R as ([f2 s2] & w2 & R2 & R).
    unfold mret in R. cbn [fst snd] in *. injection R as <- <- <-. inversion Hf; subst.
    destruct (wstep_ok _ o _ _ _ _ _ _ _ _ Wf Ef eq_refl M Hs H2 R1) as (X & _ & Y).
    eapply IH; eauto.
Qed.
End Width.

(** Everything that has been closed fits. *)
Lemma finished_fits W a : forall st A s w, wsim W a st A s w -> finished A -> writers_fit (2 ^ W - 1) a A.
Proof.
  induction a as [name schema ss vs ms rs subs IH] using adesc_deep_ind; intros st A s w Hs Hf.
  apply wsim_eq in Hs. destruct Hs as (_ & _ & S & U). destruct Hf as [A Fv Fm Fs].
  refine (proj2 (writers_fit_eq _ (mkArchive name schema ss vs ms rs subs) _) _). split; [|split].
  - intros k r Hk. specialize (S (SVec k)). cbn [wslot] in S. rewrite Hk in S. cbn [at_slot] in S. specialize (Fv k).
    destruct (pl_vecs A k) as [|d|l|l]; cbn [writer_fits wvec_slot] in *; auto. destruct (Fv l eq_refl).
  - intros k r Hk. specialize (S (SMul k)). cbn [wslot] in S. rewrite Hk in S. cbn [at_slot] in S. specialize (Fm k).
    destruct (pl_muls A k) as [|l|l]; cbn [mul_fits wmul_slot] in *; auto. destruct (Fm l eq_refl).
  - intros k x Hk. specialize (U k x Hk). unfold sub_wsim in U. unfold wsub_fits. specialize (Fs k).
    destruct (pl_subs A k) as [A'|]; auto. destruct U as (_ & id & s' & _ & H).
    cbn [ad_subs] in Hk. rewrite Forall_forall in IH. eapply (IH _ (nth_error_In _ _ Hk)); eauto.
Qed.

(** A call only adds to the plan. *)
Lemma may_writers file max o : forall a A A', wf_archive file a -> may file a A o A' -> writers_fit max a A' -> writers_fit max a A.
Proof.
  induction o as [k m|k v|k|k sets|k|k|k items|k|k d|k|k o IH]; intros a A A' Wf Hm Hf;
    assert (Ws := Wf); apply wf_eq in Ws; destruct Ws as (_ & _ & _ & _ & Wv & Wm & _ & _ & Wu);
    rewrite Forall_forall in Wv, Wm, Wu;
    inversion Hm; subst; apply writers_fit_eq in Hf; destruct Hf as (F2 & F3 & F5);
    cbn [pl_struct pl_vec pl_mul pl_raw pl_sub pl_structs pl_vecs pl_muls pl_raws pl_subs] in *;
    apply writers_fit_eq; (split; [intros j q Hj; specialize (F2 j q Hj)|
      split; [intros j q Hj; specialize (F3 j q Hj)|intros j q Hj; specialize (F5 j q Hj)]]);
    unfold wsub_fits in *; try assumption;
    cbn [pl_struct pl_vec pl_mul pl_raw pl_sub pl_structs pl_vecs pl_muls pl_raws pl_subs] in *;
    (destruct (Nat.eq_dec j k) as [->|Ne];
      [rewrite nupd_same in *|rewrite nupd_other in * by exact Ne; assumption]);
    try match goal with H : _ = _ |- context [?x] => rewrite H; match type of H with
      | pl_structs _ _ = _ => idtac | pl_vecs _ _ = _ => idtac | pl_muls _ _ = _ => idtac | pl_raws _ _ = _ => idtac | pl_subs _ _ = _ => idtac end end;
    try exact I; cbn [writer_fits mul_fits] in *; auto.
  - destruct (Wv q (nth_error_In _ _ Hj)) as (_ & (Hp & _)). rewrite app_length, Nat2Z.inj_add in F2. cbn [length] in F2. nia.
  - destruct (Wm q (nth_error_In _ _ Hj)) as (_ & _ & _ & (Hp & _) & Wts & _). cbn [s_size index_struct] in Hp.
    match goal with H1 : nth_error _ _ = Some r, H2 : nth_error _ _ = Some q |- _ => assert (q = r) by congruence; subst q end.
    rewrite buckets_size_snoc, app_length, Nat2Z.inj_add in F3. cbn [length] in F3.
    assert (Nn := MultiVecFacts.items_size_nonneg _ items Wts ltac:(assumption)). nia.
  - match goal with H1 : nth_error _ _ = Some ?x, H2 : nth_error _ _ = Some q |- _ => assert (q = x) by congruence; subst q end.
    destruct (Wu _ (nth_error_In _ _ Hj)) as (_ & Wx). eapply IH; eauto.
Qed.
Lemma history_writers file max a ops : forall A A', wf_archive file a -> history file a A ops A' -> writers_fit max a A' -> writers_fit max a A.
Proof.
  induction ops as [|o ops IH]; intros A A' Wf Hh Hf; inversion Hh; subst; [exact Hf|]. eapply may_writers; eauto.
Qed.

Section Follow.
Variable (W : Z).
Hypothesis HW : 8 <= W <= 64.
Variables (b : build) (e : endian) (lim : Z).
Lemma bstep_follows file o : forall a st A s w A' s' w', wf_archive file a -> is_file st = file -> maps_ok w ->
  sim a st A s w -> may file a A o A' -> writers_fit (2 ^ W - 1) a A' ->
  bstep_w W b e lim a o s w = (Ret (true, s'), w') -> bstep b e lim a o s w = (Ret (true, s'), w').
Proof.
  assert (HW1 : 1 <= W <= 64) by lia.
  induction o as [k m|k v|k|k sets|k|k|k items|k|k d|k|k o IH]; intros a st A s w A' s' w' Wf Fl M Hs Hm HO R;
    try exact R;
    inversion Hm; subst; cbn [bstep_w bstep] in *;
    assert (Est : bs_st s = st) by (apply sim_eq in Hs; tauto); rewrite ?Est in *;
    assert (Ws := Wf); apply wf_eq in Ws; destruct Ws as (_ & _ & _ & Ws & Wv & Wm & Wr & _ & Wu);
    rewrite Forall_forall in Ws, Wv, Wm, Wr, Wu;
    match goal with H : nth_error _ _ = Some _ |- _ => assert (I := nth_error_In _ _ H); rename H into Hk end;
    match goal with
    | H : pl_vecs _ _ = _ |- _ => rename H into Hp
    | H : pl_muls _ _ = _ |- _ => rename H into Hp
    | H : pl_subs _ _ = _ |- _ => rename H into Hp
    end;
    try match goal with
    | H : sets_ok _ _ |- _ => rename H into Hok
    | H : items_ok _ _ |- _ => rename H into Hok
    | H : may _ _ _ _ _ |- _ => match type of Hm with ?T => match type of H with T => fail 1 | _ => rename H into Hok end end
    end;
    rewrite ?Hk in *; cbn [with_some] in *;
    apply writers_fit_eq in HO; destruct HO as (OV & OM & OS);
    assert (S := Hs); apply sim_eq in S; destruct S as (_ & Hid & S & U).
  - (* grow *)
    specialize (S (SVec k)). cbn [slot_ok] in S. rewrite Hk in S. cbn [at_slot] in S. rewrite Hp in S. cbn [vec_slot] in S.
    destruct S as (Sz & v & D & rest & Ev & Hv). rewrite Ev in *. cbn [with_some] in *.
    destruct (Wv r I) as [_ Wst]. destruct (inv_sound _ _ _ _ _ _ _ _ _ _ Hv) as (S1 & S2 & S3 & _). rewrite elements_length in S2, S3.
    specialize (OV k r Hk). cbn [pl_vec pl_vecs] in OV. rewrite nupd_same in OV. cbn [writer_fits] in OV. rewrite app_length, Nat2Z.inj_add in OV. cbn [length] in OV.
    destruct Wst as (Hpos & _).
    apply bind_ret in R as ([fl v1] & w1 & R & R'). assert (R2 := R'). apply ret_pair in R' as (Ex & -> & ->). cbn [fst snd] in Ex. subst fl.
    set (sz := s_size (tr_struct r)) in *. set (n := Z.of_nat (length l)) in *. assert (Hn : 0 <= n) by apply Nat2Z.is_nonneg.
    assert (X1 : held v < 2 ^ W) by (rewrite S2; lia). assert (X2 : ev_len v <= held v) by (rewrite S2, S3; nia).
    assert (X3 : held v + sz + 8 < 2 ^ W) by (rewrite S2; lia).
    destruct (step_follows W HW b e lim (tr_struct r) sets v w true v1 w1 Hpos S1 X1 X2 R X3) as (E & _).
    unfold mbind. rewrite E. exact R2.
  - (* close *)
    specialize (S (SVec k)). cbn [slot_ok] in S. rewrite Hk in S. cbn [at_slot] in S. rewrite Hp in S. cbn [vec_slot] in S.
    destruct S as (Sz & v & D & rest & Ev & Hv). rewrite Ev in *. cbn [with_some] in *.
    destruct (Wv r I) as [[_ So] Wst]. destruct (ev_inv_bytes _ _ _ _ _ _ _ _ _ _ Hv) as (_ & _ & Lb). rewrite elements_length in Lb.
    specialize (OV k r Hk). cbn [pl_vec pl_vecs] in OV. rewrite nupd_same in OV. cbn [writer_fits] in OV.
    destruct (close_tied W HW1 b e True _ _ _ _ _ _ _ _ _ _ Hv M (schema_ok_like _ st _ eq_refl So) ltac:(lia) ltac:(lia)) as (T & _).
    unfold mbind in *. rewrite <- (T Logic.I). exact R.
  - (* multi grow *)
    specialize (S (SMul k)). cbn [slot_ok] in S. rewrite Hk in S. cbn [at_slot] in S. rewrite Hp in S. cbn [mul_slot] in S.
    destruct S as (S1 & S2 & S3 & v & bs & Ev & Lb & Hv). rewrite Ev in *. cbn [with_some] in *.
    destruct (Wm r I) as (_ & _ & _ & Wis & Wts & _).
    destruct (minv_sound _ _ _ _ _ _ _ _ _ _ _ _ Hv) as (M1 & M2 & M3 & M4 & M5 & _). rewrite bounds_length in M4, M5.
    assert (Ll := mv_inv_length _ _ _ _ _ _ _ _ _ _ _ _ Hv). unfold buckets in Ll. rewrite map_length in Ll.
    specialize (OM k r Hk). cbn [pl_mul pl_muls] in OM. rewrite nupd_same in OM. cbn [mul_fits] in OM.
    rewrite buckets_size_snoc, app_length, Nat2Z.inj_add in OM. cbn [length] in OM. destruct Wis as (Q & _). cbn [s_size index_struct] in Q.
    assert (Hi : Forall (fun x => 0 <= s_size (v_struct (mr_types r) (fst x))) items).
    { rewrite Forall_forall. intros x Hx. unfold items_ok in Hok. rewrite Forall_forall in Hok. destruct (Hok x Hx) as (Hl & _).
      unfold v_struct. destruct Wts as (Wts & _). rewrite Forall_forall in Wts.
      specialize (Wts _ (nth_In _ (0, mkStruct 0 []) Hl)). destruct Wts as (_ & (Q' & _)). cbn in *. lia. }
    assert (Nn := MultiVecFacts.items_size_nonneg _ items Wts Hok).
    apply bind_ret in R as ([fl v1] & w1 & R & R'). assert (R2 := R'). apply ret_pair in R' as (Ex & -> & ->). cbn [fst snd] in Ex. subst fl.
    rewrite <- Ll in M4, M5. set (sz := mr_size r) in *. set (n := Z.of_nat (length l)) in *. assert (Hn : 0 <= n) by apply Nat2Z.is_nonneg.
    assert (X1 : mheld v < 2 ^ W) by (rewrite M2; lia). assert (X2 : held (mv_index v) < 2 ^ W) by (rewrite M4; lia).
    assert (X3 : ev_len (mv_index v) <= held (mv_index v)) by (rewrite M4, M5; nia).
    assert (X4 : held (mv_index v) + sz + 8 < 2 ^ W /\ mheld v + items_size (mr_types r) items < 2 ^ W) by (rewrite M2, M4; lia).
    destruct (mstep_follows W HW b e lim sz (mr_bits r) (mr_types r) items v w true v1 w1 Q Hi M1 X1 M3 X2 X3 R X4) as (E & _).
    unfold mbind. rewrite E. exact R2.
  - (* multi close *)
    specialize (S (SMul k)). cbn [slot_ok] in S. rewrite Hk in S. cbn [at_slot] in S. rewrite Hp in S. cbn [mul_slot] in S.
    destruct S as (S1 & S2 & S3 & v & bs & Ev & Lb & Hv). rewrite Ev in *. cbn [with_some] in *.
    destruct (Wm r I) as (Wi & En & So & Wis & Wts & Sz). assert (Vn := identifier_valid _ Wi).
    assert (Ll := mv_inv_length _ _ _ _ _ _ _ _ _ _ _ _ Hv). unfold buckets in Ll. rewrite map_length in Ll.
    specialize (OM k r Hk). cbn [pl_mul pl_muls] in OM. rewrite nupd_same in OM. cbn [mul_fits] in OM.
    apply bind_ret in R as (x & w1 & R & R'). assert (R2 := R'). apply ret_pair in R' as (Ex & -> & ->).
    apply is_ok_true in Ex as [p ->].
    assert (E := mclose_follows W HW b e lim _ _ _ _ _ _ _ _ _ _ _ p w1 Wis Wts Vn Hv M (mv_schema_ok_like _ st _ eq_refl So)
      ltac:(lia) ltac:(lia) ltac:(rewrite <- Ll; lia) ltac:(lia) ltac:(rewrite <- Ll; lia) R).
    unfold mbind. rewrite E. exact R2.
  - (* in a sub-archive *)
    specialize (U k s0 Hk). unfold sub_sim in U. rewrite Hp in U. destruct U as (Fs & id' & s1 & Es & H1).
    rewrite Es in *. cbn [with_some] in *. destruct st as [id base|id base]; [discriminate|]. cbn [is_file] in *.
    destruct (sub_valid _ _ _ Wf I) as [V Wx].
    specialize (OS k s0 Hk). unfold wsub_fits in OS. cbn [pl_sub pl_subs] in OS. rewrite nupd_same in OS.
    apply bind_ret in R as ([fl s2] & w1 & R & R'). assert (R2 := R'). apply ret_pair in R' as (Ex & -> & ->). cbn [fst snd] in Ex. subst fl.
    assert (E := IH _ _ _ _ _ _ _ _ Wx (eq_refl : is_file (FileStorage _ _) = true) M H1 Hok OS R).
    unfold mbind. rewrite E. exact R2.
Qed.
Lemma brun_follows file a ops : forall st A s w A' fl s' w', wf_archive file a -> is_file st = file -> maps_ok w ->
  sim a st A s w -> history file a A ops A' -> writers_fit (2 ^ W - 1) a A' ->
  brun_w W b e lim a ops s w = (Ret (fl, s'), w') -> Forall (eq true) fl -> brun b e lim a ops s w = (Ret (fl, s'), w').
Proof.
  induction ops as [|o ops IH]; intros st A s w A' fl s' w' Wf Fl M Hs Hh HO R Ht; cbn [brun_w brun] in *; [exact R|].
  inversion Hh as [|? ? A1 ? ? Hm Hh']; subst.
  apply bind_ret in R as ([f1 s1] & w1 & R1 & R). apply bind_ret in R as ([f2 s2] & w2 & R2 & R). cbn [fst snd] in *.
  assert (R3 := R). apply ret_pair in R as (-> & -> & ->). inversion Ht; subst.
  assert (E := bstep_follows _ o a st A s w _ s1 w1 Wf eq_refl M Hs Hm (history_writers _ _ _ _ _ _ Wf Hh' HO) R1).
  destruct (bstep_ok _ b e lim o a st A s w _ s1 w1 Wf eq_refl M Hs Hm E) as (X & Y & Z).
  assert (E2 := IH _ _ _ _ _ _ _ _ Wf eq_refl Z X Hh' HO R2 ltac:(assumption)).
  unfold mbind. rewrite E. cbn [fst snd]. rewrite E2. reflexivity.
Qed.

(** The whole of it. *)
Lemma build_w_ok a st w st' w1 ops A fl s' w2 :
  wf_archive (is_file st) a -> elements_fit (isize_max_w W) a -> maps_ok w -> unused_storage st w ->
  builder_new b e a st w = (Ret (Ok st'), w1) -> history (is_file st) a no_plan ops A -> finished A ->
  brun_w W b e lim a ops (new_bstate st') w1 = (Ret (fl, s'), w2) -> Forall (eq true) fl ->
  writers_fit (2 ^ W - 1) a A /\ brun b e lim a ops (new_bstate st') w1 = (Ret (fl, s'), w2).
Proof.
  intros Wf Ef M Un R Hh Fin Rr Ht.
  destruct (builder_new_ok _ b e a st w st' w1 Wf eq_refl M Un R) as (-> & S1 & _ & M1).
  assert (Hw := wrun_ok W HW b e lim _ ops _ _ _ _ _ _ _ _ _ Wf Ef eq_refl M1 (wsim_new W _ _ _ S1) Hh Rr Ht).
  assert (Hf := finished_fits W a _ _ _ _ Hw Fin). split; [exact Hf|].
  eapply brun_follows; eauto.
Qed.
End Follow.
