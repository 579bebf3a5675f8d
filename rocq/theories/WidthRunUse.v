(** What did not panic and fits did what the code for 64 bits does; with
    WidthRunFacts.v, so did everything whose close reports success. *)
From Verif Require Import Base BaseFacts Codec CodecSpec CodecFacts Structs StructsSpec StructsFacts Views ViewsSpec ViewsFacts.
From Verif Require Import Storage PathFacts StorageSpec StorageFacts StorageMore StorageUse Writers WritersSpec HandleFacts EncodeFacts.
From Verif Require Import ElsewhereFacts ExtVecFacts ExtVecUse MultiViews MultiSpec MultiViewFacts MultiViewUse MultiVecFacts MultiVecUse BufferFacts.
From Verif Require Import Width WidthFacts WidthWriters WidthVectors WidthFit WidthArchives WidthArchFacts WidthBuilders WidthBuildFacts WidthRuns WidthRunFacts HandleSpec.
From Verif Require WidthVecFacts BuilderFacts.
Local Open Scope list_scope.
Local Open Scope Z_scope.
Local Arguments firstn : simpl never.
Local Arguments skipn : simpl never.

(** If [m] returns, so does [m'], with the same. *)
Definition follows {A} (m m' : M A) (Q : A -> Prop) (w : world) : Prop :=
  forall a w1, m w = (Ret a, w1) -> m' w = (Ret a, w1) /\ Q a.
Lemma follows_bind {A B} (m m' : M A) (f g : A -> M B) Q R w : follows m m' Q w ->
  (forall a w1, m w = (Ret a, w1) -> Q a -> follows (f a) (g a) R w1) -> follows (mbind m f) (mbind m' g) R w.
Proof.
  intros H1 H2 y w' E. apply bind_ret in E as (a & w1 & E1 & E2). destruct (H1 a w1 E1) as (E3 & Qa).
  unfold mbind. rewrite E3. exact (H2 a w1 E1 Qa y w' E2).
Qed.
Lemma follows_fits {A} (m m' : M A) Q w : fits m m' Q -> follows m m' Q w.
Proof. intros H a w1 E. destruct (H w) as (E1 & P). split; [congruence|]. apply (P a w1). congruence. Qed.
Lemma follows_ret {A} (a : A) (Q : A -> Prop) w : Q a -> follows (mret a) (mret a) Q w.
Proof. intros H. apply follows_fits, fits_ret, H. Qed.
Lemma follows_self {A} (m : M A) w : follows m m (fun _ => True) w.
Proof. apply follows_fits, fits_self. Qed.
Lemma follows_weaken {A} (m m' : M A) (Q R : A -> Prop) w : follows m m' Q w -> (forall a, Q a -> R a) -> follows m m' R w.
Proof. intros H HR a w1 E. destruct (H a w1 E). auto. Qed.

Section Width.
Variable W : Z.
Hypothesis HW : 8 <= W <= 64.
Variables (b : build) (e : endian) (lim : Z).

Lemma HW1 : 1 <= W <= 64.
Proof. lia. Qed.
Lemma resize_follows d n w : len d <= n -> follows (lift (vec_resize_w W d n)) (lift (vec_resize d n)) (fun d' => len d' = n) w.
Proof.
  intros L a w1 E. unfold lift in *. injection E as E <-. destruct (resize_w_len W d n a L E) as (La & Ln).
  destruct (pows W HW) as (_ & _ & _ & _ & P5 & _). unfold vec_resize_w in E. unfold vec_resize.
  destruct (Z.leb_spec n (isize_max_w W)); [|discriminate]. destruct (Z.leb_spec n isize_max); [|lia]. split; congruence.
Qed.

(** * External vectors *)
Lemma grow_follows s v w r v1 w1 : 0 <= s_size s -> sound v -> held v < 2 ^ W -> ev_len v <= held v ->
  ev_grow_w W b lim s v w = (Ret (r, v1), w1) -> match r with Ok _ => held v + s_size s + 8 < 2 ^ W /\ 0 < s_size s | Er _ => True end ->
  ev_grow b lim s v w = (Ret (r, v1), w1) /\ sound v1 /\ ev_len v1 <= held v1 /\
  held v1 = held v + match r with Ok _ => s_size s | Er _ => 0 end.
Proof.
  intros Hs Sv Hh Hn R HO. unfold ev_grow_w in R. apply bind_ret in R as ([r0 v0] & w0 & R0 & R).
  assert (X : (if lim <? len (ev_data v) then ev_flush b v else mret (Ok tt, v)) w = (Ret (r0, v0), w0) /\ sound v0 /\ held v0 = held v /\ ev_len v0 = ev_len v).
  { destruct (lim <? len (ev_data v)).
    - destruct (follows_fits _ _ _ w (flush_fits W HW1 b v Sv Hh) _ _ R0) as (E & S & H1 & H2 & _). cbn [snd] in *. auto.
    - unfold mret in *. injection R0 as <- <- <-. auto. }
  destruct X as (E0 & S0 & H0 & N0). unfold ev_grow, mbind at 1. rewrite E0.
  destruct r0 as [u|k].
  2:{ unfold mret in *. injection R as <- <- <-. split; [reflexivity|]. split; [exact S0|]. split; lia. }
  cbv zeta in *. destruct r as [p|k].
  2:{ exfalso. apply bind_ret in R as (? & ? & _ & R). apply bind_ret in R as (? & ? & _ & R). apply bind_ret in R as (? & ? & _ & R).
      apply bind_ret in R as (? & ? & _ & R). apply bind_ret in R as (? & ? & _ & R). unfold mret in R. discriminate R. }
  destruct HO as (HO & Hp). destruct (pows W HW) as (P1 & P2 & P3 & P4 & P5 & P6). destruct S0 as (S1 & S2 & S3).
  revert R. match goal with |- ?m w0 = _ -> ?m' w0 = _ /\ _ => change (m w0 = (Ret (Ok p, v1), w1) -> m' w0 = (Ret (Ok p, v1), w1) /\ (fun x : result Z io_kind * ext_vec => sound (snd x) /\ ev_len (snd x) <= held (snd x) /\ held (snd x) = held v + s_size s) (Ok p, v1)) end.
  intros R. refine ((_ : follows _ _ _ w0) _ _ R).
  unfold held in *.
  eapply follows_bind; [apply follows_fits, (add_fits W HW1); lia|]. intros n w2 _ ->.
  eapply follows_bind; [apply resize_follows; lia|]. intros d w3 _ Ld. cbv beta in Ld.
  eapply follows_bind; [apply follows_fits, (add_fits W HW1); lia|]. intros l w4 _ ->.
  eapply follows_bind; [apply follows_fits, (WidthFit.sub_fits W HW1); unfold PADDING_SIZE; lia|]. intros q w5 _ ->.
  eapply follows_bind; [apply follows_self|]. intros x w6 _ _. apply follows_ret. unfold sound. cbn [fst snd ev_data ev_len ev_handle].
  split; [repeat split; lia|]. lia.
Qed.
Lemma step_follows s sets v w f v1 w1 : 0 < s_size s -> sound v -> held v < 2 ^ W -> ev_len v <= held v ->
  ev_step_w W b e lim s sets v w = (Ret (f, v1), w1) -> (if f then held v + s_size s + 8 < 2 ^ W else True) ->
  ev_step b e lim s (EGrow sets) v w = (Ret (f, v1), w1) /\ sound v1 /\ ev_len v1 <= held v1 /\ held v1 = held v + if f then s_size s else 0.
Proof.
  intros Hs Sv Hh Hn R HO. unfold ev_step_w in R. unfold ev_step. apply bind_ret in R as ([[p|k] v0] & w0 & R0 & R).
  - apply bind_ret in R as (v2 & w2 & R2 & R). unfold mret in R. injection R as <- <- <-.
    destruct (grow_follows s v w _ _ _ ltac:(lia) Sv Hh Hn R0) as (E & S1 & N1 & H1); [auto|].
    unfold mbind. rewrite E, R2. split; [reflexivity|].
    destruct (follows_fits _ _ _ w0 (set_fits b e s sets p v0 S1) _ _ R2) as (_ & S2 & H2 & N2). split; [exact S2|]. lia.
  - unfold mret in R. injection R as <- <- <-.
    destruct (grow_follows s v w _ _ _ ltac:(lia) Sv Hh Hn R0) as (E & S1 & N1 & H1); [auto|].
    unfold mbind. rewrite E. auto.
Qed.
Lemma run_follows s ops : 0 < s_size s -> forall v w flags v' w', sound v -> ev_len v <= held v ->
  held v + Z.of_nat (length (kept ops flags)) * s_size s + 8 < 2 ^ W ->
  ev_run_w W b e lim s ops v w = (Ret (flags, v'), w') -> ev_run b e lim s ops v w = (Ret (flags, v'), w').
Proof.
  intros Hs. induction ops as [|o ops IH]; intros v w flags v' w' Sv Hn HL R; cbn [ev_run_w ev_run] in *; [exact R|].
  apply bind_ret in R as ([f v1] & w1 & R1 & R). apply bind_ret in R as ([fs v2] & w2 & R2 & R). cbn [fst snd] in *.
  apply BuilderFacts.ret_pair in R as (-> & -> & ->). destruct o as [sets|g].
  - destruct f; cbn [kept length] in HL.
    + rewrite Nat2Z.inj_succ in HL.
      destruct (step_follows s sets v w _ _ _ Hs Sv ltac:(nia) Hn R1) as (E & S1 & N1 & H1); [nia|].
      unfold mbind. rewrite E. cbn [snd]. erewrite IH; [reflexivity|exact S1|exact N1| |exact R2]. lia.
    + destruct (step_follows s sets v w _ _ _ Hs Sv ltac:(nia) Hn R1) as (E & S1 & N1 & H1); [exact I|].
      unfold mbind. rewrite E. cbn [snd]. erewrite IH; [reflexivity|exact S1|exact N1| |exact R2]. lia.
  - injection R1 as <- <- <-. unfold mbind. cbn [snd ev_step]. erewrite IH; [reflexivity|exact Sv|exact Hn| |exact R2]. exact HL.
Qed.

(** A vector whose close reports success. *)
Lemma vector_close_ok st name schema s ops w v w1 flags v' w2 sl w3 :
  wf_struct s -> s_size s <= isize_max_w W -> schema_ok st schema -> maps_ok w -> fresh_name st name w ->
  Forall (ev_op_ok st name s) ops -> grows ops * s_size s + 16 <= isize_max ->
  create_external_vector b e st name schema w = (Ret (Ok v), w1) ->
  ev_run_w W b e lim s ops v w1 = (Ret (flags, v'), w2) ->
  ev_close_w W b e v' w2 = (Ret (Ok sl), w3) ->
  Z.of_nat (length (kept ops flags)) * s_size s + 16 < 2 ^ W /\
  ev_run b e lim s ops v w1 = (Ret (flags, v'), w2) /\ ev_close b e v' w2 = (Ret (Ok sl), w3).
Proof.
  intros Hwf Hsz Sok MO F Ops HL C R Cl. pose proof Hwf as (Hpos & _). destruct (pows W HW) as (P1 & P2 & P3 & P4 & P5 & P6).
  destruct (create_ev_cases b e st name schema s w _ w1 F C) as (S1 & X).
  destruct X as [(v0 & E0 & I1)|(_ & Fo & _)]; [|destruct Fo as [(k & ?)|?]; discriminate].
  injection E0 as <-. assert (MO1 : maps_ok w1) by (eapply maps_ok_caches; [apply S1|auto]).
  destruct (follows_fits _ _ _ w (create_ev_fits b e st name schema) _ _ C) as (_ & Sv & Hh & Hn).
  assert (A1 : alive W st name v w1 0).
  { destruct I1 as (D & _ & _ & _ & Hw). apply writing_grown in Hw. unfold alive. rewrite D. change (len ([] ++ zeros 8)) with 8.
    pose proof (max_8 W HW). split; [lia|]. exact Hw. }
  destruct (alive_run W HW b e lim st name s ops ltac:(lia) Ops _ _ _ _ _ _ MO1 A1 R) as (MO2 & A2).
  rewrite Z.add_0_l in A2. destruct (alive_close W HW b e _ _ _ _ _ _ _ A2 ltac:(nia) MO2 Cl) as (B & _).
  assert (R' : ev_run b e lim s ops v w1 = (Ret (flags, v'), w2)).
  { eapply run_follows; eauto; lia. }
  split; [exact B|]. split; [exact R'|].
  destruct (ev_run_cases b e lim s st name schema ops Hwf Ops v w1 [] [] [] (zeros 8) _ w2 I1 MO1 ltac:(simpl; lia) R')
    as (_ & X).
  destruct X as [(fl & v1 & D & rest & c & E1 & Lf & I2 & C2 & _)|(E1 & _)]; [|discriminate].
  injection E1 as <- <-. simpl app in I2.
  assert (Bs := ev_inv_bytes _ _ _ _ _ _ _ _ _ _ I2). destruct Bs as (BW & Br & Lr).
  rewrite elements_length in Lr. pose proof (kept_le ops flags).
  destruct (close_tied W HW1 b e True st name schema s v' w2 _ D rest c I2 MO2 Sok ltac:(nia) ltac:(lia)) as (T & _).
  rewrite <- (T I). exact Cl.
Qed.

(** * Multivectors *)
Lemma mflush_follows v w r v1 w1 : msound v -> mheld v < 2 ^ W -> mv_flush_w W b v w = (Ret (r, v1), w1) ->
  mv_flush b v w = (Ret (r, v1), w1) /\ msound v1 /\ mheld v1 = mheld v /\ mv_index v1 = mv_index v.
Proof.
  intros S H R. destruct (follows_fits _ _ _ w (mflush_fits W HW1 b v S H) _ _ R) as (E & S1 & H1 & H2 & _). auto.
Qed.
Lemma index_follows size bits v w r v1 w1 : 0 < size -> msound v -> mheld v < 2 ^ W -> sound (mv_index v) ->
  held (mv_index v) < 2 ^ W -> ev_len (mv_index v) <= held (mv_index v) ->
  mv_add_to_index_w W b e lim size bits v w = (Ret (r, v1), w1) ->
  match r with Ok _ => held (mv_index v) + size + 8 < 2 ^ W | Er _ => True end ->
  mv_add_to_index b e lim size bits v w = (Ret (r, v1), w1) /\ msound v1 /\ mheld v1 = mheld v /\ sound (mv_index v1) /\
  ev_len (mv_index v1) <= held (mv_index v1) /\ held (mv_index v1) = held (mv_index v) + match r with Ok _ => size | Er _ => 0 end.
Proof.
  intros Hs Sv Hm Si Hi Hn R HO. unfold mv_add_to_index_w in R. unfold mv_add_to_index. cbv zeta in *.
  apply bind_ret in R as ([r1 i1] & w2 & R1 & R). unfold mbind at 1.
  destruct Sv as (S1 & S2 & S3). unfold mheld in *. destruct r1 as [p|k].
  - apply bind_ret in R as (x & w3 & R2 & R). apply bind_ret in R as (y & w4 & R3 & R). apply bind_ret in R as (i2 & w5 & R4 & R).
    unfold mret in R. injection R as <- <- <-.
    destruct (grow_follows (index_struct size bits) _ _ _ _ _ ltac:(cbn; lia) Si Hi Hn R1) as (E & A1 & A2 & A3); [cbn [s_size index_struct]; lia|].
    rewrite E. cbn [s_size index_struct] in A3.
    destruct (follows_fits _ _ _ w2 (add_fits W HW1 b (mv_flushed v) (len (mv_data v)) ltac:(lia)) _ _ R2) as (E2 & ->).
    destruct (follows_fits _ _ _ w3 (WidthFit.sub_fits W HW1 b (mv_flushed v + len (mv_data v)) PADDING_SIZE ltac:(unfold PADDING_SIZE; lia)) _ _ R3) as (E3 & ->).
    destruct (follows_fits _ _ _ w4 (set_fits b e (index_struct size bits) _ p i1 A1) _ _ R4) as (_ & C1 & C2 & C3).
    unfold mbind. rewrite E2, E3, R4. split; [reflexivity|]. unfold msound, mheld. cbn [mv_data mv_index mv_handle mv_flushed].
    split; [repeat split; lia|]. split; [lia|]. split; [exact C1|]. lia.
  - unfold mret in R. injection R as <- <- <-.
    destruct (grow_follows (index_struct size bits) _ _ _ _ _ ltac:(cbn; lia) Si Hi Hn R1) as (E & A1 & A2 & A3); [exact I|].
    rewrite E. unfold msound, mheld. cbn [mv_data mv_index mv_handle mv_flushed].
    split; [reflexivity|]. split; [repeat split; lia|]. split; [lia|]. split; [exact A1|]. lia.
Qed.
Lemma items_follow ts items : Forall (fun x => 0 <= s_size (v_struct ts (fst x))) items -> forall d d', 8 <= len d ->
  len d + items_size ts items < 2 ^ W ->
  items_add_w W b e ts items d = Ret d' -> items_add b e ts items d = Ret d' /\ len d' = len d + items_size ts items.
Proof.
  destruct (pows W HW) as (P1 & P2 & P3 & P4 & P5 & P6).
  induction 1 as [|[t sets] items Ht Hr IH]; intros d d' H1 H2 R; cbn [items_add_w items_add items_size fst] in *; [injection R as <-; split; [reflexivity|lia]|].
  assert (Nn : 0 <= items_size ts items). { clear - Hr. induction Hr; cbn [items_size]; lia. }
  unfold obind in *. destruct (item_add_w W b e ts t sets d) as [d1| | |] eqn:E; try discriminate.
  assert (E' : len d + (1 + s_size (v_struct ts t)) <= isize_max_w W).
  { unfold item_add_w, obind, uadd_w in E. rewrite !wrap_w_ok in E by lia.
    unfold vec_resize_w in E. destruct (Z.leb_spec (len d + (1 + s_size (v_struct ts t))) (isize_max_w W)) as [L|L]; [exact L|discriminate]. }
  rewrite (item_fits W HW1 b e) in E by lia. rewrite E. apply item_add_len in E; [|lia|lia]. apply IH in R; [|lia|lia]. intuition lia.
Qed.
Lemma mstep_follows size bits ts items v w f v1 w1 : 0 < size -> Forall (fun x => 0 <= s_size (v_struct ts (fst x))) items ->
  msound v -> mheld v < 2 ^ W -> sound (mv_index v) -> held (mv_index v) < 2 ^ W -> ev_len (mv_index v) <= held (mv_index v) ->
  mv_step_w W b e lim size bits ts items v w = (Ret (f, v1), w1) ->
  (if f then held (mv_index v) + size + 8 < 2 ^ W /\ mheld v + items_size ts items < 2 ^ W else True) ->
  mv_step b e lim size bits ts (MGrow items) v w = (Ret (f, v1), w1) /\ msound v1 /\ mheld v1 = mheld v + (if f then items_size ts items else 0) /\
  sound (mv_index v1) /\ ev_len (mv_index v1) <= held (mv_index v1) /\ held (mv_index v1) = held (mv_index v) + if f then size else 0.
Proof.
  intros Hs Hi Sv Hm Si Hh Hn R HO. unfold mv_step_w in R. unfold mv_step. apply bind_ret in R as ([r2 v2] & w2 & R2 & R).
  assert (Ef : f = match r2 with Ok _ => true | Er _ => false end).
  { destruct r2; [apply bind_ret in R as (? & ? & _ & R)|]; unfold mret in R; injection R as <- _ _; reflexivity. }
  assert (G : mv_grow b e lim size bits v w = (Ret (r2, v2), w2) /\ msound v2 /\ mheld v2 = mheld v /\ sound (mv_index v2) /\
    ev_len (mv_index v2) <= held (mv_index v2) /\ held (mv_index v2) = held (mv_index v) + match r2 with Ok _ => size | Er _ => 0 end).
  { unfold mv_grow_w in R2. unfold mv_grow. apply bind_ret in R2 as ([r3 v3] & w3 & R3 & R2).
    assert (X : (if lim <? len (mv_data v) then mv_flush b v else mret (Ok tt, v)) w = (Ret (r3, v3), w3) /\ msound v3 /\ mheld v3 = mheld v /\ mv_index v3 = mv_index v).
    { destruct (lim <? len (mv_data v)).
      - apply mflush_follows; auto.
      - unfold mret in *. injection R3 as <- <- <-. auto. }
    destruct X as (E3 & S3 & H3 & I3). unfold mbind. rewrite E3. destruct r3 as [u|k].
    - destruct (index_follows size bits v3 w3 r2 v2 w2) as (E & X); rewrite ?I3, ?H3; auto.
      + destruct r2; [|exact I]. subst f. apply HO.
      + split; [exact E|]. rewrite I3, H3 in X. exact X.
    - unfold mret in R2. injection R2 as <- <- <-. split; [reflexivity|]. rewrite I3, Z.add_0_r. auto. }
  destruct G as (E & S2 & H2 & Si2 & Hn2 & Hh2). unfold mbind at 1. rewrite E. destruct r2 as [u|k]; subst f.
  - apply bind_ret in R as (v3 & w3 & R3 & R). unfold mret in R. injection R as <- <-. unfold mv_add_w in R3.
    apply bind_ret in R3 as (d & w4 & R4 & R3). unfold lift in R4. injection R4 as R4 <-. unfold mret in R3. injection R3 as <- <-.
    destruct S2 as (S21 & S22 & S23). unfold mheld in *.
    apply items_follow in R4 as (R4 & L4); auto; [|lia]. unfold mv_add, mbind, lift. rewrite R4. unfold msound, mheld. cbn [mv_data mv_index mv_handle mv_flushed].
    split; [reflexivity|]. split; [repeat split; try lia|]; [|split; [lia|auto]].
    assert (0 <= items_size ts items) by (clear - Hi; induction Hi; cbn [items_size]; lia). lia.
  - unfold mret in R. injection R as <- <-. split; [reflexivity|]. rewrite Z.add_0_r. auto.
Qed.
Lemma sizes_cons ts x l : sizes ts (x :: l) = items_size ts x + sizes ts l.
Proof. reflexivity. Qed.
Lemma mrun_follows size bits ts ops : 0 < size -> Forall (fun p => 0 <= s_size (snd p)) ts -> forall v w flags v' w', msound v -> sound (mv_index v) ->
  ev_len (mv_index v) <= held (mv_index v) ->
  held (mv_index v) + Z.of_nat (length (mv_kept ops flags)) * size + 8 < 2 ^ W -> mheld v + sizes ts (mv_kept ops flags) < 2 ^ W ->
  mv_run_w W b e lim size bits ts ops v w = (Ret (flags, v'), w') ->
  mv_run b e lim size bits ts ops v w = (Ret (flags, v'), w') /\ msound v' /\ mheld v' = mheld v + sizes ts (mv_kept ops flags) /\
  sound (mv_index v') /\ ev_len (mv_index v') <= held (mv_index v') /\ held (mv_index v') = held (mv_index v) + Z.of_nat (length (mv_kept ops flags)) * size.
Proof.
  intros Hs Ht.
  assert (It : forall items, Forall (fun x : nat * list (nat * Z) => 0 <= s_size (v_struct ts (fst x))) items).
  { intros items. rewrite Forall_forall. intros x _. unfold v_struct. destruct (nth_in_or_default (fst x) ts (0, mkStruct 0 [])) as [I| ->]; [|cbn; lia].
    rewrite Forall_forall in Ht. exact (Ht _ I). }
  assert (Nn : forall items, 0 <= items_size ts items).
  { intros items. specialize (It items). induction It; cbn [items_size]; lia. }
  assert (Na : forall l, 0 <= sizes ts l).
  { unfold sizes. intros l. induction l as [|a l IHl]; cbn; [lia|]. specialize (Nn a). lia. }
  induction ops as [|o ops IH]; intros v w flags v' w' Sv Si Hn H1 H2 R; cbn [mv_run_w mv_run] in *.
  { unfold mret in *. injection R as <- <- <-. cbn. rewrite !Z.add_0_r. auto 10. }
  apply bind_ret in R as ([f v1] & w1 & R1 & R). apply bind_ret in R as ([fs v2] & w2 & R2 & R). cbn [fst snd] in *.
  apply BuilderFacts.ret_pair in R as (-> & -> & ->). destruct o as [items|g].
  - specialize (Na (mv_kept ops fs)). specialize (Nn items).
    destruct f; cbn [mv_kept length] in *.
    + rewrite sizes_cons, ?Nat2Z.inj_succ in *.
      destruct (mstep_follows size bits ts items v w _ _ _ Hs (It items) Sv ltac:(lia) Si ltac:(nia) Hn R1) as (E & S1 & M1 & Si1 & N1 & Hh1); [split; nia|].
      unfold mbind. rewrite E. cbn [snd fst]. destruct (IH v1 w1 fs v2 w2 S1 Si1 N1 ltac:(nia) ltac:(lia) R2) as (E2 & X1 & X2 & X3 & X4 & X5).
      rewrite E2. split; [reflexivity|]. split; [exact X1|]. split; [lia|]. split; [exact X3|]. split; [exact X4|lia].
    + destruct (mstep_follows size bits ts items v w _ _ _ Hs (It items) Sv ltac:(lia) Si ltac:(nia) Hn R1) as (E & S1 & M1 & Si1 & N1 & Hh1); [exact I|].
      unfold mbind. rewrite E. cbn [snd fst]. destruct (IH v1 w1 fs v2 w2 S1 Si1 N1 ltac:(nia) ltac:(lia) R2) as (E2 & X1 & X2 & X3 & X4 & X5).
      rewrite E2. split; [reflexivity|]. split; [exact X1|]. split; [lia|]. split; [exact X3|]. split; [exact X4|lia].
  - injection R1 as <- <- <-. unfold mbind. cbn [snd fst mv_step]. destruct (IH _ _ fs _ _ Sv Si Hn H1 H2 R2) as (E2 & X). rewrite E2. split; [reflexivity|exact X].
Qed.

Lemma minv_alive st name schema ts size bits v w offs l bs clean : mv_inv st name schema ts size bits v w offs l bs clean ->
  len (mv_data v) <= isize_max_w W -> len (ev_data (mv_index v)) <= isize_max_w W ->
  malive W st name v w (len (concat bs)) (Z.of_nat (length offs) * size).
Proof.
  intros (Wi & ri & ci & Wd & rd & cd & Hi & D1 & D2 & Bd & Ec & F & Hw & Cl) L1 L2.
  destruct (ev_inv_bytes _ _ _ _ _ _ _ _ _ _ Hi) as (_ & _ & Li). rewrite map_length in Li. cbn [s_size index_struct] in Li.
  destruct Hi as (I1 & _ & _ & _ & Hwi). apply writing_grown in Hw, Hwi. rewrite I1, len_app in L2. rewrite D1, len_app in L1.
  change (len (zeros 8)) with 8 in *. pose proof (len_nonneg rd). pose proof (len_nonneg ri). unfold malive, alive.
  rewrite D1, I1, !len_app. change (len (zeros 8)) with 8. rewrite <- Ec, len_app. split; [lia|]. split.
  - replace (len Wd + len rd - (len rd + 8 - 8)) with (len Wd) by lia. exact Hw.
  - split; [lia|]. replace (Z.of_nat (length offs) * size - (len ri + 8 - 8)) with (len Wi) by lia. exact Hwi.
Qed.

Lemma mclose_follows size bits ts st name schema v w l bs clean p w' :
  wf_struct (index_struct size bits) -> wf_vdesc ts -> valid_name name ->
  mv_inv st name schema ts size bits v w (MultiVecFacts.bounds 0 bs) l bs clean -> maps_ok w -> mv_schema_ok st schema ->
  len (concat bs) < 2 ^ bits -> len (concat bs) + 16 <= isize_max -> (Z.of_nat (length bs) + 1) * size + 16 <= isize_max ->
  len (concat bs) + 16 < 2 ^ W -> (Z.of_nat (length bs) + 1) * size + 16 < 2 ^ W ->
  mv_close_w W b e lim size bits v w = (Ret (Ok p), w') -> mv_close b e lim size bits v w = (Ret (Ok p), w').
Proof.
  intros Hwi Hwf Hn Hi MO Sok HB HL HI O1 O2 R. pose proof Hwi as (Hpos & _). change (s_size (index_struct size bits)) with size in Hpos.
  pose proof (len_nonneg (concat bs)) as Nn. assert (Soki := index_schema_ok _ _ Sok). destruct Sok as (Sok & _).
  destruct (index_cells st name Hn) as ((NC1 & NC2) & (NC3 & NC4)).
  destruct (minv_sound _ _ _ _ _ _ _ _ _ _ _ _ Hi) as (M1 & M2 & M3 & M4 & M5 & _). rewrite bounds_length in M4, M5.
  unfold mv_close_w in R. unfold mv_close. cbv zeta in *.
  apply bind_ret in R as ([[u|k] v1] & w1 & R1 & R); [|apply bind_ret in R as (? & ? & _ & R); discriminate R].
  destruct (index_follows size bits v w _ v1 w1 ltac:(lia) M1 ltac:(lia) M3 ltac:(nia) ltac:(nia) R1 ltac:(cbv beta iota; nia)) as (E1 & _).
  unfold mbind at 1. rewrite E1.
  destruct (mv_index_cases b e lim size bits ts st name schema Hwi Hn v w _ l bs clean _ w1 Hi HB ltac:(lia)
    ltac:(rewrite bounds_length; lia) E1) as (S1 & X).
  assert (MO1 : maps_ok w1) by (eapply maps_ok_caches; [apply S1|auto]).
  destruct X as [(v1' & Ev & _ & I1)|(_ & _ & [(k & v1' & Ev & _)|(Ev & _)])]; try discriminate Ev.
  assert (v1' = v1) by congruence. subst v1'. clear Ev.
  destruct (minv_sound _ _ _ _ _ _ _ _ _ _ _ _ I1) as (M1' & M2' & M3' & M4' & M5' & _).
  rewrite app_length, bounds_length in M4', M5'. simpl length in M4', M5'.
  apply bind_ret in R as ([[[]|k] v2] & w2 & R2 & R); [|apply bind_ret in R as (? & ? & _ & R); discriminate R].
  destruct (mflush_follows v1 w1 _ v2 w2 M1' ltac:(lia) R2) as (E2 & _). unfold mbind at 1. rewrite E2.
  destruct (mv_flush_cases b size bits ts st name schema Hwf Hn v1 w1 _ l bs clean _ w2 I1 ltac:(lia) E2) as (S2 & X).
  assert (MO2 : maps_ok w2) by (eapply maps_ok_caches; [apply S2|auto]).
  destruct X as [(v2' & Ev & Ed2 & I2)|(_ & _ & [(k & v2' & Ev & _)|(Ev & _)])]; try discriminate Ev.
  assert (v2' = v2) by congruence. subst v2'. clear Ev.
  destruct I2 as (Wi & ri & ci & Wd & rd & cd & Hi2 & D1 & D2 & Bd & Ec & F & Hw & Cl).
  assert (rd = []) as ->.
  { rewrite D1 in Ed2. apply (f_equal (@length Z)) in Ed2. rewrite app_length in Ed2. destruct rd; auto. simpl in Ed2. lia. }
  rewrite app_nil_r in Ec. subst Wd.
  assert (Bs := ev_inv_bytes _ _ _ _ _ _ _ _ _ _ Hi2). destruct Bs as (BW & Br & Lr).
  rewrite map_length, app_length, bounds_length in Lr. simpl length in Lr. change (s_size (index_struct size bits)) with size in Lr.
  destruct (close_tied W HW1 b e True st _ _ _ _ w2 _ Wi ri ci Hi2 MO2 Soki ltac:(nia) ltac:(nia)) as (T3 & _). specialize (T3 I).
  apply bind_ret in R as ([iv|x] & w3 & R3 & R); [|apply bind_ret in R as (? & ? & _ & R); discriminate R].
  rewrite T3 in R3. unfold mbind at 1. rewrite R3.
  destruct (ev_close_cases b e st _ _ _ _ w2 _ Wi ri ci _ w3 Hi2 MO2 Soki ltac:(nia) R3) as (T4 & Cm4 & MO4 & _).
  assert (Hw3 : writing st name schema (mv_handle v2) w3 (concat bs) cd).
  { eapply writing_touches; [exact T4| | |exact Hw]; auto. }
  assert (Dok : data_ok (concat bs)) by (split; [eapply buckets_bytes; eauto|lia]).
  assert (Hz := writing_size _ _ _ _ _ _ _ Hw3).
  destruct (handle_tied W HW1 b e True st name schema _ w3 _ cd Hw3 MO4 Sok Dok Bd ltac:(lia) ltac:(lia)) as (T5 & _). specialize (T5 I).
  unfold mbind in *. rewrite T5 in R. exact R.
Qed.

Lemma multi_close_ok size bits ts st name schema ops w v w1 flags v' w2 p w3 :
  wf_struct (index_struct size bits) -> wf_vdesc ts -> valid_name name -> size <= isize_max_w W ->
  Forall (fun x => s_size (snd x) < isize_max_w W) ts -> mv_schema_ok st schema -> maps_ok w -> mv_fresh st name w ->
  Forall (mv_op_ok st name ts) ops -> mv_fits size bits ts ops ->
  create_multi_vector b e st name schema w = (Ret (Ok v), w1) ->
  mv_run_w W b e lim size bits ts ops v w1 = (Ret (flags, v'), w2) ->
  mv_close_w W b e lim size bits v' w2 = (Ret (Ok p), w3) ->
  sizes ts (mv_kept ops flags) + 16 < 2 ^ W /\ (Z.of_nat (length (mv_kept ops flags)) + 1) * size + 16 < 2 ^ W /\
  mv_run b e lim size bits ts ops v w1 = (Ret (flags, v'), w2) /\ mv_close b e lim size bits v' w2 = (Ret (Ok p), w3).
Proof.
  intros Hwi Hwf Hn Hsz Hts Sok MO F Ops Fit C R Cl. pose proof Hwi as (Hpos & _). change (s_size (index_struct size bits)) with size in Hpos.
  destruct (pows W HW) as (P1 & P2 & P3 & P4 & P5 & P6). pose proof (max_8 W HW) as M8.
  assert (Hts0 : Forall (fun x => 0 <= s_size (snd x)) ts).
  { destruct Hwf as (Hwf & _). rewrite Forall_forall in *. intros x Hx. destruct (Hwf x Hx) as (_ & (Q & _)). lia. }
  assert (Hts1 : Forall (fun x => 0 <= s_size (snd x) < isize_max_w W) ts).
  { rewrite Forall_forall in *. intros x Hx. split; auto. }
  destruct (create_mv_cases b e size bits ts st name schema Hn w _ w1 F C) as (S1 & X).
  destruct X as [(v0 & E0 & I1)|(_ & Fo & _)]; [|destruct Fo as [[(k & ?)|?]|?]; discriminate].
  injection E0 as <-. assert (MO1 : maps_ok w1) by (eapply maps_ok_caches; [apply S1|auto]).
  destruct (follows_fits _ _ _ w (create_mv_fits b e st name schema) _ _ C) as (_ & Sv & Hh & Si & Hhi & Hni).
  assert (A1 : malive W st name v w1 0 0).
  { refine (minv_alive _ _ _ _ _ _ _ _ _ _ _ _ I1 _ _).
    - destruct Sv as (_ & _ & Sv). unfold mheld in Hh. lia.
    - destruct Si as (_ & Si & _). unfold held in Hhi. lia. }
  destruct (malive_run W HW b e lim size bits ts st name ltac:(lia) Hts1 Hn ops Ops _ _ _ _ _ _ _ MO1 A1 R) as (MO2 & A2).
  rewrite !Z.add_0_l in A2.
  assert (Na : 0 <= sizes ts (mv_kept ops flags)).
  { clear - Hts0. unfold sizes. induction (mv_kept ops flags) as [|a l IHl]; cbn; [lia|].
    assert (0 <= items_size ts a); [|lia]. clear - Hts0. induction a as [|x a IHa]; cbn [items_size]; [lia|].
    unfold v_struct. destruct (nth_in_or_default (fst x) ts (0, mkStruct 0 [])) as [I| ->]; [|cbn; lia].
    rewrite Forall_forall in Hts0. specialize (Hts0 _ I). lia. }
  destruct (malive_close W HW b e lim size bits st name ltac:(lia) Hn _ _ _ _ _ _ A2 Na ltac:(nia) MO2 Cl) as (B1 & B2 & _).
  destruct (mrun_follows size bits ts ops Hpos Hts0 v w1 flags v' w2 Sv Si ltac:(lia) ltac:(lia) ltac:(lia) R) as (R' & _ & Hm & _ & _ & Hk).
  split; [exact B1|]. split; [lia|]. split; [exact R'|].
  destruct Fit as (F1 & F2 & F3).
  destruct (mv_run_cases b e lim size bits ts st name schema Hwi Hwf Hn ops Ops v w1 [] [] true _ w2 I1 MO1
    ltac:(change (len (concat [])) with 0; lia) ltac:(change (len (concat [])) with 0; lia) ltac:(simpl length; nia) R')
    as (_ & _ & X).
  destruct X as [(fl & v1 & bs & clean & E1 & Lf & I2 & X)|(E1 & _)]; [|discriminate].
  injection E1 as <- <-. destruct X as (Q1 & Q2 & _). cbn [concat length] in Q1, Q2. change (len []) with 0 in Q1.
  destruct (minv_sound _ _ _ _ _ _ _ _ _ _ _ _ I2) as (_ & Q3 & _ & Q4 & _). rewrite bounds_length in Q4.
  assert (Z.of_nat (length bs) = Z.of_nat (length (mv_kept ops flags))) as Q5 by nia.
  eapply mclose_follows; eauto; try lia; nia.
Qed.

(** * Streams *)
Lemma grown_writes st name ds : forall h w T ans h' w', grown st name h w T -> maps_ok w ->
  handle_run_w W b e (List.map HWrite ds) h w = (Ret (ans, h'), w') -> maps_ok w' /\ grown st name h' w' (T + len (sent ds ans)).
Proof.
  induction ds as [|d ds IH]; intros h w T ans h' w' G MO R; cbn [List.map handle_run_w] in R.
  - unfold mret in R. injection R as <- <- <-. cbn [sent]. change (len []) with 0. rewrite Z.add_0_r. auto.
  - apply bind_ret in R as ([r1 h1] & w1 & R1 & R). cbn [fst snd] in R. apply bind_ret in R as ([a2 h2] & w2 & R2 & R).
    unfold mret in R. injection R as <- <- <-. destruct (grown_write W b _ _ _ _ _ _ _ _ _ G R1) as (S & G1).
    assert (MO1 : maps_ok w1) by (eapply maps_ok_caches; [apply S|auto]).
    destruct (IH _ _ _ _ _ _ G1 MO1 R2) as (MO2 & G2). split; [exact MO2|]. cbn [fst sent]. destruct r1; [|exact G2].
    rewrite len_app, Z.add_assoc. exact G2.
Qed.
Lemma writes_follow ds : forall h w ans h' w', 0 <= h_size h ->
  handle_run_w W b e (List.map HWrite ds) h w = (Ret (ans, h'), w') -> h_size h + len (sent ds ans) < 2 ^ W ->
  handle_run b e (List.map HWrite ds) h w = (Ret (ans, h'), w').
Proof.
  induction ds as [|d ds IH]; intros h w ans h' w' H0 R HO; cbn [List.map handle_run_w handle_run] in *.
  - exact R.
  - apply bind_ret in R as ([r1 h1] & w1 & R1 & R). cbn [fst snd] in R. apply bind_ret in R as ([a2 h2] & w2 & R2 & R).
    unfold mret in R. injection R as <- <- <-. cbn [fst sent] in HO. pose proof (len_nonneg d). pose proof (len_nonneg (sent ds a2)).
    assert (X : handle_write b h d w = (Ret (r1, h1), w1) /\ h_size h1 = match r1 with Ok _ => h_size h + len d | Er _ => h_size h end).
    { destruct r1 as [u|k].
      - rewrite len_app in HO. exact (follows_fits _ _ _ w (write_fits W HW1 b h d H0 ltac:(lia)) _ _ R1).
      - clear - R1. unfold handle_write_w in R1. unfold handle_write. destruct (h_stream h) as [s|].
        + apply bind_ret in R1 as ([[u|k1] s1] & w2 & R1 & R2).
          * apply bind_ret in R2 as (n & w3 & _ & R2). unfold mret in R2. discriminate R2.
          * unfold mbind. rewrite R1. unfold mret in *. injection R2 as -> <- <-. auto.
        + unfold mret in *. injection R1 as -> <- <-. auto. }
    destruct X as (E & Hz). unfold mbind at 1. rewrite E. cbn [fst snd]. unfold mbind.
    rewrite (IH h1 w1 a2 h2 w2 ltac:(destruct r1; lia) R2); [reflexivity|]. destruct r1; rewrite ?len_app in HO; lia.
Qed.
Lemma writes_cases st name schema ds : forall h w D c ans h' w', writing st name schema h w D c -> maps_ok w ->
  bytes_ok D -> bytes_ok c -> bytes_ok (concat ds) -> len D + len (concat ds) < 2 ^ 64 ->
  handle_run b e (List.map HWrite ds) h w = (Ret (ans, h'), w') ->
  maps_ok w' /\ exists c', writing st name schema h' w' (D ++ sent ds ans) c' /\ bytes_ok (D ++ sent ds ans) /\ bytes_ok c' /\
    len c' <= len c + len (concat ds) /\ len (sent ds ans) <= len (concat ds).
Proof.
  induction ds as [|d ds IH]; intros h w D c ans h' w' Hw MO BD Bc Bd HL R; cbn [List.map handle_run concat] in *.
  - unfold mret in R. injection R as <- <- <-. split; [exact MO|]. exists c. cbn [sent]. rewrite app_nil_r. change (len []) with 0.
    split; [exact Hw|]. split; [exact BD|]. split; [exact Bc|]. lia.
  - apply bind_ret in R as ([r1 h1] & w1 & R1 & R). cbn [fst snd] in R. apply bind_ret in R as ([a2 h2] & w2 & R2 & R).
    unfold mret in R. injection R as <- <- <-. apply bytes_ok_app in Bd as (Bd & Bds). rewrite len_app in *.
    pose proof (len_nonneg d). pose proof (len_nonneg (concat ds)). pose proof (len_nonneg D).
    destruct (handle_write_cases b st name schema h w D c d _ w1 Hw ltac:(lia) R1) as (S & X).
    assert (MO1 : maps_ok w1) by (eapply maps_ok_caches; [apply S|auto]).
    destruct X as [(h1' & Ex & Hw1)|(_ & _ & d1 & d2 & Ed & [(k & h1' & Ex & Hw1)|(Ex & _)])]; try discriminate Ex; injection Ex as -> ->.
    + destruct (IH h1' w1 _ _ a2 h2 w2 Hw1 MO1) as (MO2 & c2 & Q); auto; try (apply bytes_ok_app; auto); [rewrite len_app; lia|].
      split; [exact MO2|]. exists c2. cbn [fst sent]. rewrite <- app_assoc in Q. rewrite !len_app in *.
      destruct Q as (Q1 & Q2 & Q3 & Q4 & Q5). split; [exact Q1|]. split; [exact Q2|]. split; [exact Q3|]. lia.
    + subst d. apply bytes_ok_app in Bd as (Bd1 & _). rewrite len_app in *. pose proof (len_nonneg d1). pose proof (len_nonneg d2).
      destruct (IH h1' w1 _ _ a2 h2 w2 Hw1 MO1) as (MO2 & c2 & Q); auto; try (apply bytes_ok_app; auto); [lia|].
      split; [exact MO2|]. exists c2. cbn [fst sent]. rewrite !len_app in *.
      destruct Q as (Q1 & Q2 & Q3 & Q4 & Q5). split; [exact Q1|]. split; [exact Q2|]. split; [exact Q3|]. lia.
Qed.

Lemma stream_close_ok st name schema ds w h w1 ans h2 w2 sl h3 w3 :
  schema_ok st schema -> maps_ok w -> fresh_name st name w -> bytes_ok (concat ds) -> len (concat ds) + 16 <= isize_max ->
  create_handle b e st name schema w = (Ret (Ok h), w1) ->
  handle_run_w W b e (List.map HWrite ds) h w1 = (Ret (ans, h2), w2) ->
  handle_close_w W b e h2 w2 = (Ret (Ok sl, h3), w3) ->
  len (sent ds ans) + 16 < 2 ^ W /\
  handle_run b e (List.map HWrite ds) h w1 = (Ret (ans, h2), w2) /\ handle_close b e h2 w2 = (Ret (Ok sl, h3), w3) /\
  sl_bytes sl = sent ds ans /\ bytes_at (cell_at st name) w3 = Some (resource_bytes (sent ds ans)) /\
  bytes_at (cell_at st (schema_name name)) w3 = Some schema.
Proof.
  intros Sok MO F Bd HL C R Cl. destruct (pows W HW) as (P1 & P2 & P3 & P4 & P5 & P6).
  destruct (fresh_uncached _ _ _ F) as (A1 & A2 & A3 & A4 & A5 & A6).
  destruct (create_handle_cases _ _ _ _ _ _ _ _ A1 A2 A3 A4 A5 A6 C) as (S1 & X).
  destruct X as [(h0 & E0 & Hw)|(_ & Fo & _)]; [|destruct Fo as [(k & ?)|?]; discriminate]. injection E0 as <-.
  assert (MO1 : maps_ok w1) by (eapply maps_ok_caches; [apply S1|auto]).
  destruct (grown_writes st name ds h w1 _ ans h2 w2 (writing_grown _ _ _ _ _ _ _ Hw) MO1 R) as (MO2 & G2).
  change (len []) with 0 in G2. rewrite Z.add_0_l in G2. pose proof (len_nonneg (sent ds ans)) as Nn.
  destruct (grown_close W HW b e _ _ _ _ _ _ _ _ G2 MO2 Nn Cl) as (B & _). split; [exact B|].
  assert (Hz : h_size h = 0) by (destruct Hw as (s & _ & _ & _ & _ & E & _); exact E).
  assert (R' := writes_follow ds h w1 ans h2 w2 ltac:(lia) R ltac:(lia)). split; [exact R'|].
  destruct (writes_cases st name schema ds h w1 [] (zeros 8) ans h2 w2 Hw MO1) as (_ & c & Hw2 & B1 & B2 & L2 & L3); auto.
  { constructor. } { apply bytes_ok_zeros. } { change (len []) with 0. unfold isize_max in HL. lia. }
  cbn [app] in *. change (len (zeros 8)) with 8 in L2.
  assert (Dok : data_ok (sent ds ans)) by (split; [auto|lia]).
  assert (Hz2 := writing_size _ _ _ _ _ _ _ Hw2).
  destruct (handle_tied W HW1 b e True st name schema h2 w2 _ c Hw2 MO2 Sok Dok B2 ltac:(lia) ltac:(lia)) as (T & _).
  rewrite (T I) in Cl. split; [exact Cl|].
  destruct (handle_close_cases b e _ _ _ _ _ _ _ _ _ Hw2 MO2 Sok Dok B2 Cl) as (_ & _ & _ & X).
  destruct X as [(_ & _ & [(k & h' & Ex & _)|Ex] & _)|(V1 & V2 & _ & _ & X)]; try discriminate Ex.
  destruct X as [(Ex & _)|[(r & h' & Ex & _ & Ok1 & _)|Big]]; [discriminate Ex| |lia].
  injection Ex as <- <-. destruct (Ok1 sl eq_refl ltac:(lia)) as (Q1 & Q2 & _). rewrite Q2 in V1. auto.
Qed.

(** A closed handle. *)
Lemma closed_run_w calls : forall h w, is_open h = false ->
  handle_run_w W b e calls h w = (Ret (List.map (refused (h_name h)) calls, h), w).
Proof.
  induction calls as [|c calls IH]; intros h w H; [reflexivity|].
  assert (E : h_stream h = None) by (unfold is_open in H; destruct (h_stream h); congruence).
  destruct c; cbn [handle_run_w]; unfold handle_write_w, handle_close_w; rewrite E;
    unfold mbind, mret; cbn [snd fst]; rewrite IH by auto; reflexivity.
Qed.
End Width.
