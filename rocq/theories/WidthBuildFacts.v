(** Builders on a target of any width: if everything fits, they do what those for
    64 bits do; and a debug build panics or does so. *)
From Verif Require Import Base BaseFacts Codec CodecSpec CodecFacts Structs StructsSpec StructsFacts Views ViewsSpec ViewsFacts.
From Verif Require Import Storage PathFacts StorageSpec StorageFacts StorageMore StorageUse Writers WritersSpec HandleFacts EncodeFacts.
From Verif Require Import ElsewhereFacts ExtVecFacts ExtVecUse MultiViews MultiSpec MultiViewFacts MultiViewUse MultiVecFacts MultiVecUse.
From Verif Require Import Archives ArchiveSpec ArchiveFacts BuilderSpec BuilderFacts BuilderUse ProfileSpec ProfileFacts.
From Verif Require Import Width WidthFacts WidthWriters WidthVectors WidthMemFacts WidthAgree WidthFit.
From Verif Require Import WidthArchives WidthArchSpec WidthArchFacts WidthBuilders WidthBuildSpec.
Local Open Scope list_scope.
Local Open Scope Z_scope.
Local Arguments firstn : simpl never.
Local Arguments skipn : simpl never.

(** * Tied computations *)
(** If [ok], both do the same; a debug build panics or does the same. *)
Definition tied {A} (ok : Prop) (b : build) (m m' : M A) (w : world) : Prop :=
  (ok -> m w = m' w) /\ (b = Debug -> fst (m w) = Panic \/ m w = m' w).
Lemma tied_bind {A B} ok b (m m' : M A) (f g : A -> M B) w : tied ok b m m' w ->
  (forall a w', m w = (Ret a, w') -> m' w = (Ret a, w') -> tied ok b (f a) (g a) w') -> tied ok b (mbind m f) (mbind m' g) w.
Proof.
  intros [H1 H2] H. unfold tied, mbind. split.
  - intros O. specialize (H1 O). destruct (m w) as [[a| | |] w'] eqn:E; rewrite <- H1; auto. apply (H a w'); auto.
  - intros D. destruct (H2 D) as [P|P].
    + left. destruct (m w) as [o w']. cbn in P. subst o. reflexivity.
    + rewrite <- P. destruct (m w) as [[a| | |] w'] eqn:E; auto. apply (H a w'); auto.
Qed.
Lemma tied_eq {A} ok b (m m' : M A) w : m w = m' w -> tied ok b m m' w.
Proof. split; auto. Qed.
Lemma tied_self {A} ok b (m : M A) w : tied ok b m m w.
Proof. apply tied_eq. reflexivity. Qed.
Lemma tied_of {A} (ok : Prop) b (m m' : M A) w : (ok -> m w = m' w) -> (b = Debug -> magrees m m') -> tied ok b m m' w.
Proof. intros H1 H2. split; [exact H1|]. intros D. apply (H2 D w). Qed.

Section Width.
Variable W : Z.
Hypothesis HW : 1 <= W <= 64.
Variables (b : build) (e : endian) (lim : Z) (ok : Prop).

(** * Reading back *)
Lemma check_low c sc name expected : bytes_ok c -> header c < 2 ^ W ->
  (header c + 16 < 2 ^ W -> check_resource_w W b e name expected (whole c) (whole sc) = check_resource b e name expected (whole c) (whole sc)) /\
  (b = Debug -> check_resource_w W b e name expected (whole c) (whole sc) = Panic \/
     check_resource_w W b e name expected (whole c) (whole sc) = check_resource b e name expected (whole c) (whole sc)).
Proof.
  intros B L. destruct (bounds W HW) as (P1 & P2 & _). unfold usize_limit in P2. unfold check_resource_w, check_resource.
  change (sl_len (whole c)) with (len c). change (sl_mem (whole c)) with c.
  change (SIZE_OF_SIZE_TYPE + PADDING_SIZE) with 16. pose proof (len_nonneg c) as Lc.
  destruct (len c <? 16) eqn:E16; [auto|].
  rewrite read_size by (auto; lia). assert (HR := header_range c B ltac:(lia)). cbn [omap obind].
  unfold as_usize. rewrite Z.mod_small by lia. unfold uadd_w, uadd, SIZE_OF_SIZE_TYPE, PADDING_SIZE. split.
  - intros L'. rewrite !wrap_w_ok, !wrap_ok by (unfold usize_limit; lia). cbn [obind].
    rewrite !wrap_w_ok, !wrap_ok by (unfold usize_limit; lia). reflexivity.
  - intros ->. destruct (Z_lt_dec (header c + 16) (2 ^ W)) as [S|N].
    + right. rewrite !wrap_w_ok, !wrap_ok by (unfold usize_limit; lia). cbn [obind].
      rewrite !wrap_w_ok, !wrap_ok by (unfold usize_limit; lia). reflexivity.
    + left. unfold wrap_w. destruct ((0 <=? header c + 8) && _) eqn:E1; [|reflexivity]. cbn [obind].
      destruct ((0 <=? header c + 8 + 8) && _) eqn:E2; [lia|reflexivity].
Qed.
Lemma read_tied st name schema w c : maps_ok w -> finds st w name (Some c) -> bytes_ok c -> (b = Debug -> header c < 2 ^ W) ->
  (ok -> header c + 16 < 2 ^ W) -> tied ok b (read_w W b e st name schema) (read b e st name schema) w.
Proof.
  intros MO F B H1 H2. destruct (read_w_cases W b e st name schema w MO) as (_ & [(c' & sc & F1 & F2 & E1 & E2)|(E & _)]).
  2:{ apply tied_eq, E. }
  assert (Q := finds_fun _ _ _ _ _ F1 F). injection Q as ->. unfold checked in E1. split.
  - intros O. rewrite E2. destruct (check_low c sc name schema B ltac:(specialize (H2 O); lia)) as (X & _).
    rewrite X by auto. rewrite <- E1. destruct (read b e st name schema w). reflexivity.
  - intros D. rewrite E2. destruct (check_low c sc name schema B (H1 D)) as (_ & X).
    destruct (X D) as [->| ->]; [left; reflexivity|right]. rewrite <- E1. destruct (read b e st name schema w). reflexivity.
Qed.

Lemma handle_tied st name schema h w D c :
  writing st name schema h w D c -> maps_ok w -> schema_ok st schema -> data_ok D -> bytes_ok c ->
  (b = Debug -> h_size h < 2 ^ W) -> (ok -> h_size h + 16 < 2 ^ W) ->
  tied ok b (handle_close_w W b e h) (handle_close b e h) w.
Proof.
  intros Hw MO Sok Dok Bc HD HO.
  destruct Hw as (s & E & H1 & H2 & H3 & H4 & C & A & L & B & U1 & U2). rewrite H4 in HD, HO.
  unfold handle_close_w, handle_close. rewrite E.
  assert (Fin : forall wx, step (eq (cell_at st name)) w wx -> maps_ok wx).
  { intros wx Sx. eapply maps_ok_caches; [apply Sx|auto]. }
  eapply tied_bind; [apply tied_self|]. intros r1 w1 E1 _.
  destruct (puts_end _ _ s w c _ w1 write_padding_puts A E1) as (S1 & X1). rewrite C in S1.
  assert (St1 : step (eq (cell_at st name)) w w1) by apply S1.
  destruct r1 as [[u|k] s1]; [|apply tied_self].
  destruct X1 as [(s1' & E1' & C1 & A1)|(F & d1 & d2 & Ed & [(k & s' & X & _)|(X & _)])]; try discriminate X.
  assert (s1' = s1) by congruence. subst s1'. clear E1'.
  eapply tied_bind; [apply tied_self|]. intros r2 w2 E2 _.
  destruct (seek_start_cases s1 w1 _ _ _ _ A1 E2) as (S2 & B2 & X2). rewrite C1, C in S2, B2.
  assert (St2 : step (eq (cell_at st name)) w w2) by (eapply step_trans; [exact St1|apply S2]).
  destruct r2 as [[u2|k] s2]; [|apply tied_self].
  destruct X2 as [(s2' & E2' & C2 & A2)|(F & [(k & s' & X & _)|X])]; try discriminate X.
  assert (s2' = s2) by congruence. subst s2'. clear E2'.
  eapply tied_bind; [apply tied_self|]. intros r3 w3 E3 _.
  assert (C2' : cell_of s2 = cell_at st name) by congruence.
  destruct (write_size_puts b e (h_size h) s2 w2 _ _ _ _ A2 ltac:(split; [lia|apply len_nonneg]) E3) as (S3 & X3).
  rewrite C2' in S3, X3.
  assert (St3 : step (eq (cell_at st name)) w w3) by (eapply step_trans; [exact St2|apply S3]).
  destruct r3 as [[u3|k] s3]; [|apply tied_self].
  destruct X3 as [(s3' & E3' & C3 & A3)|(F & d1 & d2 & Ed & [(k & s' & X & _)|(X & _)])]; try discriminate X.
  rewrite splice_start, H4, le_bytes_length in A3.
  assert (Esl : le_bytes 8 (len D) ++ skipn 8 (c ++ zeros 8) = sealed D c).
  { unfold sealed. f_equal. rewrite skipn_app. destruct L as (_ & L & _). unfold len in L.
    replace (8 - length c)%nat with 0%nat by lia. auto. }
  rewrite Esl in A3. assert (B3 := at_pos_bytes _ _ _ _ A3). rewrite C3 in B3.
  assert (Uc : uncached st name w3) by (eapply uncached_caches; try apply St3; auto).
  assert (Sl8 := sealed_len D c L). pose proof (len_nonneg c).
  assert (Fd : finds st w3 name (Some (sealed D c))).
  { apply finds_uncached; [apply Uc|auto|]. intros _ HH. rewrite HH in Sl8. rewrite len_nil in Sl8. lia. }
  assert (HD64 : len D < 2 ^ 64) by (destruct Dok as (_ & D'); unfold isize_max in D'; lia).
  rewrite H1, H2, H3. eapply tied_bind; [|intros; apply tied_self].
  eapply read_tied; eauto; rewrite ?sealed_header; auto using bytes_ok_sealed.
Qed.

(** * Closing *)
Lemma flushed_low v w v' w' : ev_flush_w W Debug v w = (Ret (Ok tt, v'), w') -> h_size (ev_handle v') < 2 ^ W.
Proof.
  unfold ev_flush_w. intros R. apply bind_ret in R as (n & w1 & _ & R). apply bind_ret in R as (d & w2 & _ & R).
  apply bind_ret in R as ([[u|k] h] & w3 & R & R'); [|discriminate R']. injection R' as <- _. cbn [ev_handle].
  revert R. unfold handle_write_w. destruct (h_stream (ev_handle v)) as [s|]; [|discriminate].
  intros R. apply bind_ret in R as ([[u'|k] s'] & w4 & _ & R); [|discriminate R].
  apply bind_ret in R as (m & w5 & Q & R). injection R as _ <- _. cbn [h_size].
  unfold lift, uadd_w, wrap_w in Q. destruct (_ && _) eqn:E; [|discriminate Q]. injection Q as <- _. lia.
Qed.
Lemma mflushed_low v w v' w' : mv_flush_w W Debug v w = (Ret (Ok tt, v'), w') -> h_size (mv_handle v') < 2 ^ W.
Proof.
  unfold mv_flush_w. intros R. apply bind_ret in R as (n & w1 & _ & R). apply bind_ret in R as (d & w2 & _ & R).
  apply bind_ret in R as ([[u|k] h] & w3 & R & R'); [|discriminate R']. apply bind_ret in R' as (f & w3' & _ & R'). injection R' as <- _. cbn [mv_handle].
  revert R. unfold handle_write_w. destruct (h_stream (mv_handle v)) as [s|]; [|discriminate].
  intros R. apply bind_ret in R as ([[u'|k] s'] & w4 & _ & R); [|discriminate R].
  apply bind_ret in R as (m & w5 & Q & R). injection R as _ <- _. cbn [h_size].
  unfold lift, uadd_w, wrap_w in Q. destruct (_ && _) eqn:E; [|discriminate Q]. injection Q as <- _. lia.
Qed.

Lemma inv_sound st name schema s v w l D rest c : ev_inv st name schema s v w l D rest c ->
  sound v /\ held v = Z.of_nat (length l) * s_size s /\ ev_len v = Z.of_nat (length l) /\ h_size (ev_handle v) = len D.
Proof.
  intros H. destruct (ev_inv_bytes _ _ _ _ _ _ _ _ _ _ H) as (_ & _ & L).
  destruct H as (E1 & E2 & _ & _ & (x & _ & _ & _ & _ & E3 & _)). unfold sound, held. rewrite E1, E2, E3, len_app. change (len (zeros 8)) with 8.
  pose proof (len_nonneg D). pose proof (len_nonneg rest). repeat split; lia.
Qed.

Lemma close_tied st name schema s v w l D rest c :
  ev_inv st name schema s v w l D rest c -> maps_ok w -> schema_ok st schema -> len D + len rest + 16 <= isize_max ->
  (ok -> len D + len rest + 16 < 2 ^ W) -> tied ok b (ev_close_w W b e v) (ev_close b e v) w.
Proof.
  intros Hi MO Sok HL HO. destruct (inv_sound _ _ _ _ _ _ _ _ _ _ Hi) as (S & Hh & _ & _).
  destruct (ev_inv_bytes _ _ _ _ _ _ _ _ _ _ Hi) as (BD & Br & Lr).
  unfold ev_close_w, ev_close. eapply tied_bind.
  { apply tied_of; [|intros ->; apply ww_ev_flush, HW]. intros O. specialize (HO O). apply (flush_fits W HW); auto. lia. }
  intros [[u|k] v1] w1 E0 E1; [|apply tied_self]. destruct u.
  destruct (ev_flush_cases _ _ _ _ _ _ _ _ _ _ _ _ _ Hi ltac:(lia) E1) as (S1 & X).
  assert (MO1 : maps_ok w1) by (eapply maps_ok_caches; [apply S1|auto]).
  destruct X as [(v1' & Ev & I1)|(_ & _ & [(k & v1' & d & Ev & _)|(Ev & _)])]; try discriminate Ev.
  assert (v1' = v1) by congruence. subst v1'. clear Ev.
  assert (Dok : data_ok (D ++ rest)) by (split; [apply bytes_ok_app; auto|rewrite len_app; lia]).
  destruct (inv_sound _ _ _ _ _ _ _ _ _ _ I1) as (_ & _ & _ & Hsz). destruct I1 as (D1 & D2 & Bc & _ & Hw).
  eapply tied_bind; [|intros; apply tied_self].
  eapply handle_tied; eauto.
  - intros ->. eapply flushed_low; eauto.
  - rewrite Hsz, len_app. intros O. specialize (HO O). lia.
Qed.

Lemma minv_sound st name schema ts size bits v w offs l bs clean : mv_inv st name schema ts size bits v w offs l bs clean ->
  msound v /\ mheld v = len (concat bs) + 8 /\ sound (mv_index v) /\
  held (mv_index v) = Z.of_nat (length offs) * size /\ ev_len (mv_index v) = Z.of_nat (length offs) /\
  h_size (mv_handle v) = mv_flushed v.
Proof.
  intros (Di & ri & ci & Dd & rd & cd & Hi & E1 & E2 & _ & Ec & _ & (x & _ & _ & _ & _ & E3 & _) & _).
  destruct (inv_sound _ _ _ _ _ _ _ _ _ _ Hi) as (S & H1 & H2 & _). rewrite map_length in *. cbn [s_size index_struct] in H1.
  unfold msound, mheld. rewrite <- Ec, E1, E2, E3, !len_app. change (len (zeros 8)) with 8.
  pose proof (len_nonneg Dd). pose proof (len_nonneg rd). split; [repeat split; lia|]. split; [lia|]. auto.
Qed.
Lemma writing_size st name schema h w D c : writing st name schema h w D c -> h_size h = len D.
Proof. intros (x & _ & _ & _ & _ & E & _). exact E. Qed.

Lemma mclose_tied size bits ts st name schema v w l bs clean :
  wf_struct (index_struct size bits) -> wf_vdesc ts -> valid_name name ->
  mv_inv st name schema ts size bits v w (MultiVecFacts.bounds 0 bs) l bs clean -> maps_ok w -> mv_schema_ok st schema ->
  len (concat bs) < 2 ^ bits -> len (concat bs) + 16 <= isize_max -> (Z.of_nat (length bs) + 1) * size + 16 <= isize_max ->
  (ok -> len (concat bs) + 16 <= isize_max_w W /\ (Z.of_nat (length bs) + 1) * size + 16 <= isize_max_w W) ->
  tied ok b (mv_close_w W b e lim size bits v) (mv_close b e lim size bits v) w.
Proof.
  intros Hwi Hwf Hn Hi MO Sok HB HL HI HO. pose proof Hwi as (Hpos & _). change (s_size (index_struct size bits)) with size in Hpos.
  destruct (bounds W HW) as (P1 & P2 & P3 & P4 & P5). pose proof (len_nonneg (concat bs)) as Nn.
  assert (Soki := index_schema_ok _ _ Sok). destruct Sok as (Sok & _).
  destruct (index_cells st name Hn) as ((NC1 & NC2) & (NC3 & NC4)).
  destruct (minv_sound _ _ _ _ _ _ _ _ _ _ _ _ Hi) as (M1 & M2 & M3 & M4 & M5 & _). rewrite bounds_length in M4, M5.
  unfold mv_close_w, mv_close. eapply tied_bind.
  { apply tied_of; [|intros ->; apply ww_mv_index, HW]. intros O. destruct (HO O) as (O1 & O2).
    apply (index_fits W HW); auto; nia. }
  intros [[u|k] v1] w1 E0 E1; [|apply tied_self].
  destruct (mv_index_cases b e lim size bits ts st name schema Hwi Hn v w _ l bs clean _ w1 Hi HB ltac:(lia)
    ltac:(rewrite bounds_length; lia) E1) as (S1 & X).
  assert (MO1 : maps_ok w1) by (eapply maps_ok_caches; [apply S1|auto]).
  destruct X as [(v1' & Ev & _ & I1)|(_ & _ & [(k & v1' & Ev & _)|(Ev & _)])]; try discriminate Ev.
  assert (v1' = v1) by congruence. subst v1'. clear Ev E0 E1.
  destruct (minv_sound _ _ _ _ _ _ _ _ _ _ _ _ I1) as (M1' & M2' & M3' & M4' & M5' & _).
  rewrite app_length, bounds_length in M4', M5'. simpl length in M4', M5'.
  eapply tied_bind.
  { apply tied_of; [|intros ->; apply ww_mv_flush, HW]. intros O. destruct (HO O) as (O1 & O2).
    apply (mflush_fits W HW); auto; lia. }
  intros [[u2|k] v2] w2 E2 E2'; [|apply tied_self]. destruct u2.
  destruct (mv_flush_cases b size bits ts st name schema Hwf Hn v1 w1 _ l bs clean _ w2 I1 ltac:(lia) E2') as (S2 & X).
  assert (MO2 : maps_ok w2) by (eapply maps_ok_caches; [apply S2|auto]).
  destruct X as [(v2' & Ev & Ed2 & I2)|(_ & _ & [(k & v2' & Ev & _)|(Ev & _)])]; try discriminate Ev.
  assert (v2' = v2) by congruence. subst v2'. clear Ev.
  assert (Low : b = Debug -> h_size (mv_handle v2) < 2 ^ W) by (intros ->; eapply mflushed_low; eauto).
  destruct I2 as (Wi & ri & ci & Wd & rd & cd & Hi2 & D1 & D2 & Bd & Ec & F & Hw & Cl).
  assert (rd = []) as ->.
  { rewrite D1 in Ed2. apply (f_equal (@length Z)) in Ed2. rewrite app_length in Ed2. destruct rd; auto. simpl in Ed2. lia. }
  rewrite app_nil_r in Ec. subst Wd.
  assert (Bs := ev_inv_bytes _ _ _ _ _ _ _ _ _ _ Hi2). destruct Bs as (BW & Br & Lr).
  rewrite map_length, app_length, bounds_length in Lr. simpl length in Lr. change (s_size (index_struct size bits)) with size in Lr.
  eapply tied_bind.
  { eapply close_tied; eauto; [nia|]. intros O. destruct (HO O). nia. }
  intros r3 w3 _ E3. destruct r3 as [iv|x]; [|apply tied_self].
  destruct (ev_close_cases b e st _ _ _ _ w2 _ Wi ri ci _ w3 Hi2 MO2 Soki ltac:(nia) E3) as (T3 & Cm3 & MO3 & _).
  assert (Hw3 : writing st name schema (mv_handle v2) w3 (concat bs) cd).
  { eapply writing_touches; [exact T3| | |exact Hw]; auto. }
  assert (Dok : data_ok (concat bs)) by (split; [eapply buckets_bytes; eauto|lia]).
  eapply tied_bind; [|intros; apply tied_self].
  eapply handle_tied; eauto. rewrite (writing_size _ _ _ _ _ _ _ Hw3). intros O. destruct (HO O). lia.
Qed.

(** * Growing *)
Lemma step_tied s sets v w n : 0 < s_size s -> sound v -> held v = n * s_size s -> ev_len v = n -> 
  (ok -> (n + 1) * s_size s + 16 <= isize_max_w W) ->
  tied ok b (ev_step_w W b e lim s sets v) (ev_step b e lim s (EGrow sets) v) w.
Proof.
  intros Hs Sv Hh Hn HO. destruct (bounds W HW) as (P1 & P2 & P3 & P4 & P5). assert (0 <= n) by (destruct Sv as (_ & _ & S); lia).
  unfold ev_step_w, ev_step. eapply tied_bind; [|intros; apply tied_self].
  apply tied_of; [|intros ->; apply ww_ev_grow, HW]. intros O. specialize (HO O).
  apply (grow_fits W HW); auto; nia.
Qed.
Lemma mstep_tied size bits ts items v w n m : 0 < size -> Forall (fun x => 0 <= s_size (v_struct ts (fst x))) items ->
  msound v -> mheld v = m + 8 -> sound (mv_index v) -> held (mv_index v) = n * size -> ev_len (mv_index v) = n ->
  (ok -> m + items_size ts items + 16 <= isize_max_w W /\ (n + 1) * size + 16 <= isize_max_w W) ->
  tied ok b (mv_step_w W b e lim size bits ts items v) (mv_step b e lim size bits ts (MGrow items) v) w.
Proof.
  intros Hs Hi Sv Hh Si Hhi Hn HO. destruct (bounds W HW) as (P1 & P2 & P3 & P4 & P5). assert (0 <= n) by (destruct Si as (_ & _ & S); lia).
  assert (Nn : 0 <= items_size ts items). { clear - Hi. induction Hi; cbn [items_size]; lia. }
  apply tied_of; [|intros ->].
  - intros O. destruct (HO O) as (O1 & O2). refine (proj1 ((_ : fits _ _ (fun _ => True)) w)). unfold mv_step_w, mv_step.
    eapply fits_bind; [apply (mgrow_fits W HW); auto; nia|]. intros [[u|k] v1] (A1 & A2 & A3); cbn [fst snd] in *; [|apply fits_self].
    eapply fits_bind; [apply (madd_fits W HW); auto|intros; apply fits_self].
    destruct A1 as (B1 & B2 & B3). unfold mheld in *. lia.
  - unfold mv_step_w, mv_step. apply magrees_bind; [apply ww_mv_grow, HW|]. intros [[u|k] v1]; [|apply magrees_refl].
    apply magrees_bind; [apply ww_mv_add, HW|]. intros. apply magrees_refl.
Qed.

(** * Builders *)
Definition sub_fits (max : Z) (A : plan) (k : nat) (x : string * adesc * bool) : Prop :=
  match pl_subs A k with Some A' => plan_fits max (snd (fst x)) A' | None => True end.
Lemma plan_fits_eq max a A : plan_fits max a A <->
  16 <= max /\ (forall k r, nth_error (ad_structs a) k = Some r -> bytes_fit max (pl_structs A k)) /\
  (forall k r, nth_error (ad_vectors a) k = Some r -> vec_fits max r (pl_vecs A k)) /\
  (forall k r, nth_error (ad_multis a) k = Some r -> mul_fits max r (pl_muls A k)) /\
  (forall k r, nth_error (ad_raws a) k = Some r -> bytes_fit max (pl_raws A k)) /\
  (forall k x, nth_error (ad_subs a) k = Some x -> sub_fits max A k x).
Proof.
  clear HW. destruct a as [name schema ss vs ms rs subs]. cbn [plan_fits ad_structs ad_vectors ad_multis ad_raws ad_subs].
  assert (E : forall l i, (fix go (k : nat) (l : list (string * adesc * bool)) : Prop :=
     match l with
     | [] => True
     | (_, a', _) :: l =>
         match pl_subs A k with Some A' => plan_fits max a' A' | None => True end /\ go (S k) l
     end) i l <-> forall k x, nth_error l k = Some x -> sub_fits max A (i + k) x).
  { intros l; induction l as [|[[n a'] o] l IH]; intros i.
    - split; [intros _ [|k] x H; discriminate H|auto].
    - rewrite IH. split.
      + intros [H H'] [|k] x Hk; cbn [nth_error] in Hk.
        * injection Hk as <-. rewrite Nat.add_0_r. exact H.
        * rewrite <- Nat.add_succ_comm. auto.
      + intros H. split.
        * specialize (H O _ eq_refl). rewrite Nat.add_0_r in H. exact H.
        * intros k x Hk. rewrite Nat.add_succ_comm. apply H. exact Hk. }
  rewrite E. tauto.
Qed.

(** A call only adds to the plan. *)
Lemma may_fits file max o : forall a A A', wf_archive file a -> may file a A o A' -> plan_fits max a A' -> plan_fits max a A.
Proof.
  clear HW. induction o as [k m|k v|k|k sets|k|k|k items|k|k d|k|k o IH]; intros a A A' Wf Hm Hf;
    assert (Ws := Wf); apply wf_eq in Ws; destruct Ws as (_ & _ & _ & _ & Wv & Wm & _ & _ & Wu);
    rewrite Forall_forall in Wv, Wm, Wu;
    inversion Hm; subst; apply plan_fits_eq in Hf; destruct Hf as (F0 & F1 & F2 & F3 & F4 & F5);
    cbn [pl_struct pl_vec pl_mul pl_raw pl_sub pl_structs pl_vecs pl_muls pl_raws pl_subs] in *;
    apply plan_fits_eq; (split; [exact F0|split; [intros j q Hj; specialize (F1 j q Hj)|split; [intros j q Hj; specialize (F2 j q Hj)|
      split; [intros j q Hj; specialize (F3 j q Hj)|split; [intros j q Hj; specialize (F4 j q Hj)|intros j q Hj; specialize (F5 j q Hj)]]]]]);
    unfold sub_fits in *; try assumption;
    cbn [pl_struct pl_vec pl_mul pl_raw pl_sub pl_structs pl_vecs pl_muls pl_raws pl_subs] in *;
    (destruct (Nat.eq_dec j k) as [->|Ne];
      [rewrite nupd_same in *|rewrite nupd_other in * by exact Ne; assumption]);
    try match goal with H : _ = _ |- context [?x] => rewrite H; match type of H with
      | pl_structs _ _ = _ => idtac | pl_vecs _ _ = _ => idtac | pl_muls _ _ = _ => idtac | pl_raws _ _ = _ => idtac | pl_subs _ _ = _ => idtac end end;
    try (intros ? X; discriminate X); try exact I; cbn [vec_fits mul_fits] in *; auto.
  - destruct (Wv q (nth_error_In _ _ Hj)) as (_ & (Hp & _)). rewrite app_length, Nat2Z.inj_add in F2. cbn [length] in F2. nia.
  - destruct (Wm q (nth_error_In _ _ Hj)) as (_ & _ & _ & (Hp & _) & Wts & _). cbn [s_size index_struct] in Hp.
    match goal with H1 : nth_error _ _ = Some r, H2 : nth_error _ _ = Some q |- _ => assert (q = r) by congruence; subst q end.
    rewrite buckets_size_snoc, app_length, Nat2Z.inj_add in F3. cbn [length] in F3.
    assert (Nn := MultiVecFacts.items_size_nonneg _ items Wts ltac:(assumption)). nia.
  - match goal with H1 : nth_error _ _ = Some ?x, H2 : nth_error _ _ = Some q |- _ => assert (q = x) by congruence; subst q end.
    destruct (Wu _ (nth_error_In _ _ Hj)) as (_ & Wx). eapply IH; eauto.
Qed.
Lemma history_fits file max a ops : forall A A', wf_archive file a -> history file a A ops A' -> plan_fits max a A' -> plan_fits max a A.
Proof.
  induction ops as [|o ops IH]; intros A A' Wf Hh Hf; inversion Hh; subst; [exact Hf|]. eapply may_fits; eauto.
Qed.

Lemma bstep_tied file o : forall a st A s w A', wf_archive file a -> is_file st = file -> maps_ok w ->
  sim a st A s w -> may file a A o A' -> (ok -> plan_fits (isize_max_w W) a A') ->
  tied ok b (bstep_w W b e lim a o s) (bstep b e lim a o s) w.
Proof.
  induction o as [k m|k v|k|k sets|k|k|k items|k|k d|k|k o IH]; intros a st A s w A' Wf Fl M Hs Hm HO;
    try apply tied_self;
    inversion Hm; subst; cbn [bstep_w bstep];
    assert (Est : bs_st s = st) by (apply sim_eq in Hs; tauto); rewrite ?Est;
    assert (Ws := Wf); apply wf_eq in Ws; destruct Ws as (_ & _ & _ & Ws & Wv & Wm & Wr & _ & Wu);
    rewrite Forall_forall in Ws, Wv, Wm, Wr, Wu;
    match goal with H : nth_error _ _ = Some _ |- _ => assert (I := nth_error_In _ _ H); rename H into Hk end;
    match goal with
    | H : pl_vecs _ _ = _ |- _ => rename H into Hp
    | H : pl_muls _ _ = _ |- _ => rename H into Hp
    | H : pl_subs _ _ = _ |- _ => rename H into Hp
    end;
    try match goal with
    | H : sets_ok _ _ |- _ => rename H into Hok
    | H : items_ok _ _ |- _ => rename H into Hok
    | H : may _ _ _ _ _ |- _ => match type of Hm with ?T => match type of H with T => fail 1 | _ => rename H into Hok end end
    end;
    rewrite ?Hk; cbn [with_some];
    assert (S := Hs); apply sim_eq in S; destruct S as (_ & Hid & S & U).
  - (* grow *)
    specialize (S (SVec k)). cbn [slot_ok] in S. rewrite Hk in S. cbn [at_slot] in S. rewrite Hp in S. cbn [vec_slot] in S.
    destruct S as (Sz & v & D & rest & Ev & Hv). rewrite Ev. cbn [with_some].
    destruct (Wv r I) as [_ Wst]. destruct (inv_sound _ _ _ _ _ _ _ _ _ _ Hv) as (S1 & S2 & S3 & _). rewrite elements_length in S2, S3.
    eapply tied_bind; [|intros; apply tied_self]. eapply step_tied; eauto; [apply Wst|].
    intros O. specialize (HO O). apply plan_fits_eq in HO as (_ & _ & HO & _). specialize (HO k r Hk).
    cbn [pl_vec pl_vecs] in HO. rewrite nupd_same in HO. cbn [vec_fits] in HO. rewrite app_length, Nat2Z.inj_add in HO. exact HO.
  - (* close *)
    specialize (S (SVec k)). cbn [slot_ok] in S. rewrite Hk in S. cbn [at_slot] in S. rewrite Hp in S. cbn [vec_slot] in S.
    destruct S as (Sz & v & D & rest & Ev & Hv). rewrite Ev. cbn [with_some].
    destruct (Wv r I) as [[_ So] Wst]. destruct (ev_inv_bytes _ _ _ _ _ _ _ _ _ _ Hv) as (_ & _ & Lb). rewrite elements_length in Lb.
    eapply tied_bind; [|intros; apply tied_self].
    eapply close_tied; eauto; [exact (schema_ok_like _ st _ eq_refl So)|lia|].
    intros O. specialize (HO O). apply plan_fits_eq in HO as (_ & _ & HO & _). specialize (HO k r Hk).
    cbn [pl_vec pl_vecs] in HO. rewrite nupd_same in HO. cbn [vec_fits] in HO. destruct (bounds W HW) as (_ & _ & P & _). lia.
  - (* multi grow *)
    specialize (S (SMul k)). cbn [slot_ok] in S. rewrite Hk in S. cbn [at_slot] in S. rewrite Hp in S. cbn [mul_slot] in S.
    destruct S as (S1 & S2 & S3 & v & bs & Ev & Lb & Hv). rewrite Ev. cbn [with_some].
    destruct (Wm r I) as (_ & _ & _ & Wis & Wts & _).
    destruct (minv_sound _ _ _ _ _ _ _ _ _ _ _ _ Hv) as (M1 & M2 & M3 & M4 & M5 & _). rewrite bounds_length in M4, M5.
    assert (Ll := mv_inv_length _ _ _ _ _ _ _ _ _ _ _ _ Hv). unfold buckets in Ll. rewrite map_length in Ll.
    eapply tied_bind; [|intros; apply tied_self]. eapply mstep_tied; eauto.
    + apply Wis.
    + rewrite Forall_forall. intros x Hx. unfold items_ok in Hok. rewrite Forall_forall in Hok. destruct (Hok x Hx) as (Hl & _).
      unfold v_struct. destruct Wts as (Wts & _). rewrite Forall_forall in Wts.
      specialize (Wts _ (nth_In _ (0, mkStruct 0 []) Hl)). destruct Wts as (_ & (Q & _)). cbn in *. lia.
    + intros O. specialize (HO O). apply plan_fits_eq in HO as (_ & _ & _ & HO & _). specialize (HO k r Hk).
      cbn [pl_mul pl_muls] in HO. rewrite nupd_same in HO. cbn [mul_fits] in HO.
      rewrite buckets_size_snoc, app_length, Nat2Z.inj_add in HO. cbn [length] in HO. destruct Wis as (Q & _). cbn in Q. nia.
  - (* multi close *)
    specialize (S (SMul k)). cbn [slot_ok] in S. rewrite Hk in S. cbn [at_slot] in S. rewrite Hp in S. cbn [mul_slot] in S.
    destruct S as (S1 & S2 & S3 & v & bs & Ev & Lb & Hv). rewrite Ev. cbn [with_some].
    destruct (Wm r I) as (Wi & En & So & Wis & Wts & Sz). assert (Vn := identifier_valid _ Wi).
    assert (Ll := mv_inv_length _ _ _ _ _ _ _ _ _ _ _ _ Hv). unfold buckets in Ll. rewrite map_length in Ll.
    eapply tied_bind; [|intros; apply tied_self].
    eapply mclose_tied; eauto; try (rewrite <- Ll || idtac; lia).
    + exact (mv_schema_ok_like _ st _ eq_refl So).
    + intros O. specialize (HO O). apply plan_fits_eq in HO as (_ & _ & _ & HO & _). specialize (HO k r Hk).
      cbn [pl_mul pl_muls] in HO. rewrite nupd_same in HO. cbn [mul_fits] in HO. rewrite Lb, <- Ll. exact HO.
  - (* in a sub-archive *)
    specialize (U k s0 Hk). unfold sub_sim in U. rewrite Hp in U. destruct U as (Fs & id' & s1 & Es & H1).
    rewrite Es. cbn [with_some]. destruct st as [id base|id base]; [discriminate|]. cbn [is_file] in *.
    destruct (sub_valid _ _ _ Wf I) as [V Wx].
    eapply tied_bind; [|intros; apply tied_self]. eapply IH; eauto; [reflexivity|].
    intros O. specialize (HO O). apply plan_fits_eq in HO as (_ & _ & _ & _ & _ & HO). specialize (HO k s0 Hk).
    unfold sub_fits in HO. cbn [pl_sub pl_subs] in HO. rewrite nupd_same in HO. exact HO.
Qed.

Lemma brun_tied file a ops : forall o st A s w A' flags s' w', wf_archive file a -> is_file st = file -> maps_ok w ->
  sim a st A s w -> history file a A (ops ++ [o]) A' -> (ok -> plan_fits (isize_max_w W) a A') ->
  brun b e lim a ops s w = (Ret (flags, s'), w') -> Forall (eq true) flags ->
  tied ok b (brun_w W b e lim a (ops ++ [o])  s) (brun b e lim a (ops ++ [o]) s) w.
Proof.
  induction ops as [|o1 ops IH]; intros o st A s w A' flags s' w' Wf Fl M Hs Hh HO R Ht; cbn [app brun_w brun] in *.
  - inversion Hh as [|? ? ? ? ? Hm Hh']; subst. inversion Hh'; subst.
    eapply tied_bind; [eapply bstep_tied; eauto|]. intros. apply tied_self.
  - inversion Hh as [|? ? A1 ? ? Hm Hh']; subst.
    apply bind_ret in R as ([f1 s1] & w1 & R1 & R). apply bind_ret in R as ([f2 s2] & w2 & R2 & R).
    apply ret_pair in R as (-> & -> & ->). cbn [fst snd] in *. inversion Ht; subst.
    eapply tied_bind.
    + eapply bstep_tied; eauto. intros O. eapply history_fits; eauto.
    + intros x wx _ E. rewrite R1 in E. injection E as <- <-. cbn [fst snd].
      destruct (bstep_ok _ b e lim o1 a st A s w _ s1 w1 Wf eq_refl M Hs Hm R1) as (X & Y & Z).
      eapply tied_bind; [|intros; apply tied_self]. eapply IH; eauto.
Qed.
End Width.
