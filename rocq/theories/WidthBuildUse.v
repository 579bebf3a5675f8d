(** Debug and release builds of builders on narrow targets; and what was built
    on a target of any width opens on a target of any width. *)
From Verif Require Import Base BaseFacts Codec CodecSpec CodecFacts Structs StructsSpec StructsFacts Views ViewsSpec ViewsFacts.
From Verif Require Import Storage PathFacts StorageSpec StorageFacts StorageMore StorageUse Writers WritersSpec HandleFacts EncodeFacts.
From Verif Require Import ElsewhereFacts ExtVecFacts ExtVecUse MultiViews MultiSpec MultiViewFacts MultiViewUse MultiVecFacts MultiVecUse.
From Verif Require Import Archives ArchiveSpec ArchiveFacts BuilderSpec BuilderFacts BuilderUse DirFacts BuilderProgress ProfileSpec ProfileFacts.
From Verif Require BufferFacts.
From Verif Require Import Width WidthFacts WidthWriters WidthVectors WidthMemFacts WidthAgree.
From Verif Require Import WidthArchives WidthArchSpec WidthArchFacts WidthBuilders WidthBuildSpec WidthBuildFacts.
Local Open Scope list_scope.
Local Open Scope Z_scope.
Local Arguments firstn : simpl never.
Local Arguments skipn : simpl never.

(** * Debug and release *)
Section Agree.
Variables (W : Z) (e : endian) (lim : Z).
#[local] Hint Resolve wa_uadd wa_usub wa_umul agrees_read agrees_run_sets agrees_through agrees_write_size agrees_create_handle
  agrees_create_ev agrees_create_mv agrees_ev_set agrees_storage_write agrees_create_archive agrees_builder_new : profile.
#[local] Hint Resolve wr_ev_flush wr_ev_grow wr_mv_flush wr_mv_index wr_mv_grow wr_mv_add : profile.
Lemma agrees_omap {A B} (f : A -> B) x y : agrees x y -> agrees (omap f x) (omap f y).
Proof. intros [->| ->]; [left|right]; reflexivity. Qed.
#[local] Hint Resolve agrees_omap : profile.
Lemma wx_check n x d s : agrees (check_resource_w W Debug e n x d s) (check_resource_w W Release e n x d s).
Proof. unfold check_resource_w. agree. Qed.
#[local] Hint Resolve wx_check : profile.
Lemma wx_read st n x : magrees (read_w W Debug e st n x) (read_w W Release e st n x).
Proof. unfold read_w. agree. Qed.
#[local] Hint Resolve wx_read : profile.
Lemma wx_handle_close h : magrees (handle_close_w W Debug e h) (handle_close_w W Release e h).
Proof. unfold handle_close_w. agree. Qed.
#[local] Hint Resolve wx_handle_close : profile.
Lemma wx_ev_close v : magrees (ev_close_w W Debug e v) (ev_close_w W Release e v).
Proof. unfold ev_close_w. agree. Qed.
#[local] Hint Resolve wx_ev_close : profile.
Lemma wx_mv_close size bits v : magrees (mv_close_w W Debug e lim size bits v) (mv_close_w W Release e lim size bits v).
Proof. unfold mv_close_w. agree. Qed.
Lemma wx_ev_step s sets v : magrees (ev_step_w W Debug e lim s sets v) (ev_step_w W Release e lim s sets v).
Proof. unfold ev_step_w. agree. Qed.
Lemma wx_mv_step size bits ts items v : magrees (mv_step_w W Debug e lim size bits ts items v) (mv_step_w W Release e lim size bits ts items v).
Proof. unfold mv_step_w. agree. Qed.
#[local] Hint Resolve wx_mv_close wx_ev_step wx_mv_step : profile.
Lemma wx_open : forall a st, magrees (open_archive_w W Debug e a st) (open_archive_w W Release e a st).
Proof.
  fix IH 1. intros [name schema structs vectors multis raws subs] st. simpl.
  apply magrees_try; [agree|intros _].
  apply magrees_try; [apply agrees_each; intro; unfold open_typed_w; apply agrees_check; agree|intros ss].
  apply magrees_try; [apply agrees_each; intro; unfold open_typed_w; apply agrees_check; agree|intros vs].
  apply magrees_try; [apply agrees_each; intro; unfold open_multi_w|intros ms].
  { apply magrees_try; [apply agrees_check; agree|intro]. apply magrees_try; [apply agrees_check; agree|agree]. }
  apply magrees_try; [apply agrees_each; intro; unfold open_raw_w; apply agrees_check; agree|intros rs].
  apply magrees_try; [|agree].
  induction subs as [|[[n a'] opt] r IHr]; [agree|].
  apply magrees_try; [|intros y; apply magrees_try; [exact IHr|agree]].
  apply agrees_check. apply magrees_bind; [agree|]. intros st'. apply IH.
Qed.
Lemma wx_bstep : forall o a s, magrees (bstep_w W Debug e lim a o s) (bstep_w W Release e lim a o s).
Proof.
  induction o; intros a s; simpl; unfold with_some, set_struct, set_vector, start_vector, start_multi, set_raw, sub_builder;
    agree.
Qed.
Lemma wx_brun a ops : forall s, magrees (brun_w W Debug e lim a ops s) (brun_w W Release e lim a ops s).
Proof.
  induction ops as [|o r IH]; intros s; simpl; [agree|].
  apply magrees_bind; [apply wx_bstep|]. intros x. apply magrees_bind; [apply IH|agree].
Qed.
End Agree.

(** * From the creation of the builder *)
Section Build.
Variable W : Z.
Hypothesis HW : 1 <= W <= 64.
Lemma build_tied (ok : Prop) b e lim a st w st' w1 ops o A flags s' w2 : wf_archive (is_file st) a -> maps_ok w -> unused_storage st w ->
  builder_new b e a st w = (Ret (Ok st'), w1) -> history (is_file st) a no_plan (ops ++ [o]) A ->
  (ok -> plan_fits (2 ^ (W - 1) - 1) a A) ->
  brun b e lim a ops (new_bstate st') w1 = (Ret (flags, s'), w2) -> Forall (eq true) flags ->
  tied ok b (brun_w W b e lim a (ops ++ [o]) (new_bstate st')) (brun b e lim a (ops ++ [o]) (new_bstate st')) w1.
Proof.
  intros Wf M Un R Hh HO Rr Ht.
  destruct (builder_new_ok _ b e a st w st' w1 Wf eq_refl M Un R) as (-> & S1 & _ & M1).
  eapply brun_tied; eauto.
Qed.
Lemma build_all_tied (ok : Prop) b e lim a st w st' w1 ops A flags s' w2 : wf_archive (is_file st) a -> maps_ok w -> unused_storage st w ->
  builder_new b e a st w = (Ret (Ok st'), w1) -> history (is_file st) a no_plan ops A ->
  (ok -> plan_fits (2 ^ (W - 1) - 1) a A) ->
  brun b e lim a ops (new_bstate st') w1 = (Ret (flags, s'), w2) -> Forall (eq true) flags ->
  tied ok b (brun_w W b e lim a ops (new_bstate st')) (brun b e lim a ops (new_bstate st')) w1.
Proof.
  intros Wf M Un R Hh HO Rr Ht. destruct ops as [|o ops] using rev_ind; [apply tied_self|].
  assert (Split : exists fl s1 wx, brun b e lim a ops (new_bstate st') w1 = (Ret (fl, s1), wx) /\ Forall (eq true) fl).
  { clear - Rr Ht. revert Rr Ht. generalize (new_bstate st'). revert flags w1. induction ops as [|o1 ops IH]; intros flags w1 s0 R Ht.
    - exists [], s0, w1. split; [reflexivity|constructor].
    - cbn [app brun] in *. apply bind_ret in R as ([f1 s1] & wa & R1 & R). apply bind_ret in R as ([f2 s2] & wb & R2 & R).
      apply ret_pair in R as (-> & -> & ->). cbn [fst snd] in *. inversion Ht; subst.
      destruct (IH _ _ _ R2) as (fl & sx & wx & E & F); [assumption|]. exists (true :: fl), sx, wx.
      split; [|constructor; auto]. unfold mbind. rewrite R1. cbn [fst snd]. rewrite E. reflexivity. }
  destruct Split as (fl & s1 & wx & E & F). eapply build_tied; eauto.
Qed.
(** A debug build that has not panicked so far. *)
Lemma brun_debug file e lim a ops : forall st A A' s w flags s' w', wf_archive file a -> is_file st = file -> maps_ok w ->
  sim a st A s w -> history file a A ops A' -> brun_w W Debug e lim a ops s w = (Ret (flags, s'), w') -> Forall (eq true) flags ->
  brun Debug e lim a ops s w = (Ret (flags, s'), w').
Proof.
  induction ops as [|o ops IH]; intros st A A' s w flags s' w' Wf Fl M Hs Hh R Ht; inversion Hh as [|? ? A1 ? ? Hm Hh']; subst; cbn [brun brun_w] in *; [exact R|].
  apply bind_ret in R as ([f1 s1] & w1 & R1 & R). apply bind_ret in R as ([f2 s2] & w2 & R2 & R).
  apply ret_pair in R as (-> & -> & ->). cbn [fst snd] in *. inversion Ht; subst.
  destruct (bstep_tied W HW Debug e lim False _ o a st A s w _ Wf eq_refl M Hs Hm ltac:(intros [])) as (_ & T).
  specialize (T eq_refl). rewrite R1 in T. destruct T as [T|T]; [discriminate T|]. symmetry in T.
  destruct (bstep_ok _ Debug e lim o a st A s w _ s1 w1 Wf eq_refl M Hs Hm T) as (X & _ & Z).
  unfold mbind. rewrite T. cbn [fst snd]. rewrite (IH st A1 A' s1 w1 f2 s2 w2); auto.
Qed.
Lemma build_debug e lim a st w st' w1 ops o A flags s' w2 : wf_archive (is_file st) a -> maps_ok w -> unused_storage st w ->
  builder_new Debug e a st w = (Ret (Ok st'), w1) -> history (is_file st) a no_plan (ops ++ [o]) A ->
  brun_w W Debug e lim a ops (new_bstate st') w1 = (Ret (flags, s'), w2) -> Forall (eq true) flags ->
  fst (brun_w W Debug e lim a (ops ++ [o]) (new_bstate st') w1) = Panic \/
  brun_w W Debug e lim a (ops ++ [o]) (new_bstate st') w1 = brun Debug e lim a (ops ++ [o]) (new_bstate st') w1.
Proof.
  intros Wf M Un R Hh Rr Ht.
  destruct (builder_new_ok _ Debug e a st w st' w1 Wf eq_refl M Un R) as (-> & S1 & _ & M1).
  assert (Hh1 : exists B, history (is_file st) a no_plan ops B).
  { clear - Hh. revert Hh. generalize no_plan. induction ops as [|x ops IH]; intros p H; [exists p; constructor|].
    cbn [app] in H. inversion H as [|? ? A1 ? ? Hm H']; subst. destruct (IH _ H') as (B & HB). exists B. econstructor; eauto. }
  destruct Hh1 as (B & HB). assert (Rr' := brun_debug _ e lim a ops st _ _ _ _ _ _ _ Wf eq_refl M1 S1 HB Rr Ht).
  eapply (proj2 (build_tied False Debug e lim a st w st w1 ops o A flags s' w2 Wf M Un R Hh ltac:(intros []) Rr' Ht)). reflexivity.
Qed.
Lemma build_debug_open e b' e' lim a st w st' w1 ops A flags s' w2 : wf_archive (is_file st) a -> maps_ok w -> unused_storage st w ->
  builder_new Debug e a st w = (Ret (Ok st'), w1) -> history (is_file st) a no_plan ops A -> finished A ->
  brun_w W Debug e lim a ops (new_bstate st') w1 = (Ret (flags, s'), w2) -> Forall (eq true) flags ->
  (exists r w3, open_archive b' e' a st (set_faults [] w2) = (Ret r, w3) /\
     ((exists x, r = Ok x) <-> sufficient a A) /\ forall x, r = Ok x -> shows_plan a A x) /\
  (forall id base, st = FileStorage id base -> exists r, fresh_open b' e' a base w2 = Ret r /\
     ((exists x, r = Ok x) <-> sufficient a A) /\ forall x, r = Ok x -> shows_plan a A x).
Proof.
  intros Wf M Un R Hh Fin Rr Ht.
  destruct (builder_new_ok _ Debug e a st w st' w1 Wf eq_refl M Un R) as (-> & S1 & _ & M1).
  assert (Rr' := brun_debug _ e lim a ops st _ _ _ _ _ _ _ Wf eq_refl M1 S1 Hh Rr Ht).
  exact (build_open Debug e b' e' lim a st w st w1 ops A flags s' w2 Wf M Un R Hh Fin Rr' Ht).
Qed.
Lemma build_progress_w b e lim a st w ops A : wf_archive (is_file st) a -> dirs_apart a -> maps_ok w ->
  unused_storage st w -> empty_place st w -> history (is_file st) a no_plan ops A -> plan_fits (2 ^ (W - 1) - 1) a A ->
  exists w1 s' w2, builder_new b e a st w = (Ret (Ok st), w1) /\
    brun_w W b e lim a ops (new_bstate st) w1 = (Ret (repeat true (length ops), s'), w2) /\
    brun b e lim a ops (new_bstate st) w1 = (Ret (repeat true (length ops), s'), w2).
Proof.
  intros Wf Da M Un E H HO. destruct (build_progress b e lim a st w ops A Wf Da M Un E H) as (w1 & s' & w2 & R1 & R2 & _).
  exists w1, s', w2. split; [exact R1|]. split; [|exact R2]. rewrite <- R2.
  apply (build_all_tied True b e lim a st w st w1 ops A (repeat true (length ops)) s' w2); auto.
  clear. induction (length ops); constructor; auto.
Qed.
End Build.

(** * Files that fit *)
Definition tight (max : Z) (p : place) (n : string) : Prop :=
  forall c, found p n (Some c) -> exists d, c = resource_bytes d /\ data_ok d /\ len d + 16 <= max.
Lemma tight_tells max p n sch o : tells p n sch o -> bytes_fit max o -> tight max p n.
Proof.
  intros T F c Fc. destruct o as [d|]; cbn [tells] in T.
  - destruct T as (T & _ & D & _). exists d. apply (found_fun _ _ _ _ T) in Fc. split; [congruence|]. split; [exact D|]. apply F. reflexivity.
  - destruct T as (T & _). apply (found_fun _ _ _ _ T) in Fc. discriminate Fc.
Qed.
Lemma array_of_len s D l : array_of s D l -> len D = Z.of_nat (length l) * s_size s.
Proof.
  intros (ms & -> & F). induction F as [|m r ms l E F IH]; [reflexivity|]. cbn [concat length]. rewrite len_app, IH.
  destruct E as (_ & E & _). lia.
Qed.
Lemma buckets_len ts l : forall bs, Forall2 (bucket_of ts) bs (buckets ts l) -> len (concat bs) = buckets_size ts l.
Proof.
  induction l as [|x l IH]; intros bs F; inversion F as [|m1 y ms1 l1 E F1]; subst; [reflexivity|].
  cbn [concat buckets_size]. rewrite len_app, (BufferFacts.bucket_len _ _ _ E), (IH _ F1). reflexivity.
Qed.
Lemma vec_tight max p st r o v w : views p st w -> vec_slot st r o v w -> schema_ok st (tr_schema r) -> (forall l, o <> VOpen l) ->
  vec_fits max r o -> tight max p (tr_name r).
Proof.
  intros V H S N F. destruct o as [|d|l|l]; cbn [vec_slot vec_fits] in *.
  - eapply tight_tells; [apply (byte_tells p st _ _ None w V H S)|]. intros d. discriminate.
  - eapply tight_tells; [apply (byte_tells p st _ _ (Some d) w V H S)|]. intros d' [= <-]. exact F.
  - destruct (N l eq_refl).
  - destruct H as (D & K & Ar & _). eapply tight_tells; [apply (byte_tells p st _ _ (Some D) w V K S)|]. intros d' [= <-].
    apply array_of_len in Ar. rewrite Ar, elements_length. exact F.
Qed.
Lemma mul_tight max p st r o v w : views p st w -> mul_slot st r o v w -> mv_schema_ok st (mr_schema r) -> (forall l, o <> MOpen l) ->
  mul_fits max r o -> tight max p (mr_index r) /\ tight max p (mr_name r).
Proof.
  intros V H S N F. assert (Si := index_schema_ok _ _ S). destruct o as [|l|l]; cbn [mul_slot mul_fits] in *.
  - destruct H as [A B]. split; eapply tight_tells.
    + apply (byte_tells p st _ _ None w V A Si).
    + intros d. discriminate.
    + apply (byte_tells p st _ _ None w V B (proj1 S)).
    + intros d. discriminate.
  - destruct (N l eq_refl).
  - destruct H as (bs & Di & Fb & [_ Ar] & A & B). split; eapply tight_tells.
    + apply (byte_tells p st _ _ (Some Di) w V A Si).
    + intros d [= <-]. apply array_of_len in Ar. rewrite map_length, app_length, bounds_length in Ar. cbn [length s_size index_struct] in Ar.
      assert (L : length bs = length (buckets (mr_types r) l)) by (eapply Forall2_length; exact Fb). unfold buckets in L. rewrite map_length in L. rewrite Ar, L, Nat2Z.inj_add. apply F.
    + apply (byte_tells p st _ _ (Some (concat bs)) w V B (proj1 S)).
    + intros d [= <-]. rewrite (buckets_len _ _ _ Fb). apply F.
Qed.
Lemma sim_tight file max a : forall st A s w p, wf_archive file a -> is_file st = file -> sim a st A s w -> finished A ->
  plan_fits max a A -> views p st w -> everywhere (tight max) a p.
Proof.
  induction a as [name schema ss vs ms rs subs IH] using adesc_deep_ind.
  set (a := mkArchive name schema ss vs ms rs subs) in *. intros st A s w p Wf Fl Hs Fin Fit V.
  assert (Ws := Wf). apply wf_eq in Ws. destruct Ws as (_ & Wsig & _ & Ws & Wv & Wm & Wr & _ & Wu).
  assert (Hs' := Hs). apply sim_eq in Hs'. destruct Hs' as (_ & _ & S & U).
  inversion Fin as [A0 Fv Fm Fu E0]. subst A0. apply plan_fits_eq in Fit. destruct Fit as (F0 & F1 & F2 & F3 & F4 & F5).
  rewrite Forall_forall in Ws, Wv, Wm, Wr, Wu. apply everywhere_eq. split.
  - apply part_names_all. split; [|rewrite !Forall_forall; split; [|split; [|split]]; intros r I; apply In_nth_ex in I as [k Hk]].
    + eapply (tight_tells _ _ _ (ad_schema a) (Some [])); [|intros d [= <-]; exact F0].
      eapply kept_tells; [exact V|split; [exact (S SSig)|]|eapply schema_ok_like; eauto]. split; [constructor|discriminate].
    + specialize (S (SStruct k)). cbn [slot_ok] in S. rewrite Hk in S. cbn [at_slot] in S.
      destruct (Ws r (nth_error_In _ _ Hk)) as [_ So].
      eapply tight_tells; [eapply byte_tells; eauto; eapply schema_ok_like; eauto|eauto].
    + specialize (S (SVec k)). cbn [slot_ok] in S. rewrite Hk in S. cbn [at_slot] in S.
      destruct (Wv r (nth_error_In _ _ Hk)) as [[_ So] _]. eapply vec_tight; eauto. eapply schema_ok_like; eauto.
    + specialize (S (SMul k)). cbn [slot_ok] in S. rewrite Hk in S. cbn [at_slot] in S.
      destruct (Wm r (nth_error_In _ _ Hk)) as (_ & _ & So & _). eapply mul_tight; eauto. eapply mv_schema_ok_like; eauto.
    + specialize (S (SRaw k)). cbn [slot_ok] in S. rewrite Hk in S. cbn [at_slot] in S.
      destruct (Wr r (nth_error_In _ _ Hk)) as [_ So].
      eapply tight_tells; [eapply byte_tells; eauto; eapply schema_ok_like; eauto|eauto].
  - rewrite Forall_forall in IH. apply Forall_forall. intros x I. destruct (sub_valid _ _ _ Wf I) as [Vx Wx].
    apply In_nth_ex in I as I'. destruct I' as [k Hk]. specialize (U k x Hk). unfold sub_sim in U.
    specialize (F5 k x Hk). unfold sub_fits in F5. destruct (pl_subs A k) as [A'|] eqn:Ek.
    + destruct U as (Fs & id' & s' & _ & H). destruct st as [id base|id base]; [discriminate|]. cbn [st_base] in H.
      eapply (IH x I (FileStorage id' (path_join base (fst (fst x))))); eauto.
      right. exists id', (path_join base (fst (fst x))). split; [reflexivity|].
      destruct V as [->|(i & bs & [= <- <-] & ->)]; reflexivity.
    + assert (Vo : void (sub_place p (fst (fst x)))).
      { destruct st as [id base|id base].
        - left. destruct V as [->|(i & bs & E & _)]; [reflexivity|discriminate E].
        - right. exists (path_join base (fst (fst x))), w. split; [|exact U].
          destruct V as [->|(i & bs & [= <- <-] & ->)]; reflexivity. }
      eapply void_everywhere; eauto. intros q n T. eapply tight_tells; [exact T|]. intros d. discriminate.
Qed.

Lemma tight_agree W b e p n : 8 <= W <= 64 -> tight (2 ^ (W - 1) - 1) p n -> agree_on W b e p n.
Proof.
  intros HW T schema c sc F. destruct (T c F) as (d & -> & D & L). assert (Hd := len_nonneg d).
  assert (X := resource_bytes_ok d D). destruct X as (B & _).
  assert (Y : len (resource_bytes d) = len d + 16). { unfold resource_bytes. rewrite framed_len, len_zeros by lia. lia. }
  assert (2 ^ (W - 1) <= 2 ^ W) by (apply Z.pow_le_mono_r; lia).
  apply check_portable; auto; [lia|]. rewrite resource_header by exact D. lia.
Qed.

(** A new process on a target with [W] bits opens the directory. *)
Lemma build_open_w W b e b' e' lim a st w st' w1 ops A flags s' w2 : 8 <= W <= 64 ->
  wf_archive (is_file st) a -> maps_ok w -> unused_storage st w ->
  builder_new b e a st w = (Ret (Ok st'), w1) ->
  history (is_file st) a no_plan ops A -> finished A -> plan_fits (2 ^ (W - 1) - 1) a A ->
  brun b e lim a ops (new_bstate st') w1 = (Ret (flags, s'), w2) -> Forall (eq true) flags ->
  (exists r w3, open_archive_w W b' e' a st (set_faults [] w2) = (Ret r, w3) /\
     ((exists x, r = Ok x) <-> sufficient a A) /\ forall x, r = Ok x -> shows_plan a A x) /\
  (forall id base, st = FileStorage id base -> exists r, fst (open_archive_w W b' e' a (FileStorage 0 base) (reader_world w2)) = Ret r /\
     ((exists x, r = Ok x) <-> sufficient a A) /\ forall x, r = Ok x -> shows_plan a A x).
Proof.
  intros HW Wf M Un R Hh Fin Fit Rr Ht.
  destruct (build_open b e b' e' lim a st w st' w1 ops A flags s' w2 Wf M Un R Hh Fin Rr Ht) as (X1 & X2).
  destruct (builder_new_ok _ b e a st w st' w1 Wf eq_refl M Un R) as (-> & S1 & _ & M1).
  destruct (brun_ok _ b e lim a ops st _ _ _ _ _ _ _ Wf eq_refl M1 S1 Hh Rr Ht) as (S2 & _ & M2).
  split.
  - assert (S3 : sim a st A s' (set_faults [] w2)).
    { eapply (sim_frame _ nothing); [exact Wf|exact S2|apply touches_frame, touches_faults|]. intros c _ []. }
    assert (T := sim_tight _ _ a st A s' _ (PStorage st (set_faults [] w2)) Wf eq_refl S3 Fin Fit (or_introl eq_refl)).
    destruct (sim_opens _ a st A s' _ (PStorage st (set_faults [] w2)) Wf eq_refl S3 Fin (or_introl eq_refl)) as (P & _).
    destruct X1 as (r & w3 & E & X1). exists r, w3. split; [|exact X1]. rewrite <- E.
    apply (same_open W b' e' a st (PStorage st (set_faults [] w2)) P).
    + eapply everywhere_weaken; [|exact T]. intros q n. apply tight_agree, HW.
    + apply represents_self; [exact M2|]. apply sim_eq in S3. tauto.
  - intros id base ->. destruct (X2 id base eq_refl) as (r & E & X). exists r. split; [|exact X]. rewrite <- E.
    change (fresh_open b' e' a base w2) with (fst (open_archive b' e' a (FileStorage 0 base) (reader_world w2))).
    assert (V : views (PDisk base w2) (FileStorage id base) w2) by (right; eauto).
    assert (T := sim_tight _ _ a _ A s' w2 (PDisk base w2) Wf eq_refl S2 Fin Fit V).
    destruct (sim_opens _ a _ A s' w2 (PDisk base w2) Wf eq_refl S2 Fin V) as (P & _). f_equal.
    apply (same_open W b' e' a (FileStorage 0 base) (PDisk base w2) P); [|apply represents_disk].
    eapply everywhere_weaken; [|exact T]. intros q n. apply tight_agree, HW.
Qed.
