(** Opening what a builder has written. *)
From Verif Require Import Base BaseFacts Codec CodecSpec CodecFacts Structs StructsSpec StructsFacts Views ViewsSpec ViewsFacts.
From Verif Require Import Storage PathFacts StorageSpec StorageFacts StorageMore StorageUse Writers WritersSpec HandleFacts EncodeFacts.
From Verif Require Import ElsewhereFacts ExtVecFacts ExtVecUse MultiViews MultiSpec MultiViewFacts MultiViewUse MultiVecFacts MultiVecUse.
From Verif Require Import Archives ArchiveSpec ArchiveFacts BuilderSpec BuilderFacts.
Local Open Scope list_scope.
Local Open Scope Z_scope.
Local Arguments firstn : simpl never.
Local Arguments skipn : simpl never.

Lemma brun_ok file b e lim a ops : forall st A A' s w flags s' w', wf_archive file a -> is_file st = file -> maps_ok w ->
  sim a st A s w -> history file a A ops A' -> brun b e lim a ops s w = (Ret (flags, s'), w') -> Forall (eq true) flags ->
  sim a st A' s' w' /\ frame (region st) w w' /\ maps_ok w'.
Proof.
  induction ops as [|o ops IH]; intros st A A' s w flags s' w' Wf Fl M Hs Hh R Ht; inversion Hh; subst; cbn [brun] in R.
  - apply ret_pair in R as (-> & -> & ->). split; [exact Hs|]. split; [apply frame_refl|exact M].
  - apply bind_ret in R as ([f1 s1] & w1 & R1 & R). apply bind_ret in R as ([f2 s2] & w2 & R2 & R).
    apply ret_pair in R as (-> & -> & ->). cbn [fst snd] in *. inversion Ht; subst.
    match goal with H : may _ _ _ _ _ |- _ => rename H into Hm end.
    match goal with H : history _ _ _ ops _ |- _ => rename H into Hh' end.
    destruct (bstep_ok _ b e lim o a st A s w _ s1 w1 Wf eq_refl M Hs Hm R1) as (X & Y & Z).
    destruct (IH st _ _ s1 w1 f2 s2 w2 Wf eq_refl Z X Hh' R2) as (P & Q & T); [assumption|].
    split; [exact P|]. split; [eapply frame_trans; eauto|exact T].
Qed.

(** * Places showing what was written *)
Definition views (p : place) (st : storage) (w : world) : Prop :=
  p = PStorage st w \/ exists id base, st = FileStorage id base /\ p = PDisk base w.

Lemma stored_found p st n schema d w : views p st w -> stored st n schema d w -> (is_file st = true -> schema <> []) ->
  found p n (Some (resource_bytes d)) /\ found p (schema_name n) (Some schema).
Proof.
  intros [->|(id & base & -> & ->)] (A & B & C & D) S; simpl.
  - auto.
  - cbn [cell_at bytes_at] in A, B. unfold res_key, res_path in A, B. cbn [st_base] in *. rewrite A, B.
    specialize (S eq_refl). split.
    + destruct (resource_bytes d) eqn:E; [destruct (resource_bytes_nonempty d E)|reflexivity].
    + destruct schema; [congruence|reflexivity].
Qed.
Lemma blank_found p st n w : views p st w -> blank st n w -> found p n None /\ found p (schema_name n) None.
Proof.
  intros V ((U1 & U2) & A & B).
  assert (E : forall m, unused st m w -> bytes_at (cell_at st m) w = None -> found p m None).
  { intros m U X. destruct V as [->|(id & base & -> & ->)]; simpl.
    - destruct st as [id base|id base]; simpl in *.
      + destruct U as [-> ->]. reflexivity.
      + rewrite U, X. reflexivity.
    - cbn [cell_at bytes_at] in X. unfold res_key, res_path in X. cbn [st_base] in X. rewrite X. reflexivity. }
  auto.
Qed.

(** What can be found: nothing, or data with its schema. *)
Definition tells (p : place) (n : string) (schema : list Z) (o : option (list Z)) : Prop :=
  match o with
  | None => found p n None /\ found p (schema_name n) None
  | Some d => found p n (Some (resource_bytes d)) /\ found p (schema_name n) (Some schema) /\ data_ok d /\ utf8_ok schema = true
  end.
Lemma tells_holds p n schema o d : tells p n schema o -> (holds p n schema d <-> o = Some d).
Proof.
  destruct o as [d'|]; simpl.
  - intros (A & B & D & U). split.
    + intros (c & pad & F & -> & L & _). apply (found_fun _ _ _ _ A) in F.
      assert (F' : resource_bytes d' = framed d pad) by congruence. f_equal. symmetry.
      eapply (prefix_framed d' (framed d pad) [] d pad); eauto. rewrite app_nil_r. exact F'.
    + intros [= ->]. exists (resource_bytes d), (zeros 8). split; [exact A|]. split; [reflexivity|].
      split; [reflexivity|]. split; [exact B|exact U].
  - intros [A B]. split; [|discriminate]. intros (c & pad & F & _). apply (found_fun _ _ _ _ A) in F. discriminate F.
Qed.
Lemma tells_readable p n schema o : tells p n schema o -> readable p n.
Proof.
  destruct o as [d|]; simpl.
  - intros (A & B & D & _). split; [eauto|]. split; [eauto|]. intros c F. apply (found_fun _ _ _ _ A) in F.
    injection F as <-. apply resource_bytes_ok. exact D.
  - intros [A B]. split; [eauto|]. split; [eauto|]. intros c F. apply (found_fun _ _ _ _ A) in F. discriminate F.
Qed.
Lemma tells_tame p n schema o : tells p n schema o -> tame p n.
Proof.
  destruct o as [d|]; simpl.
  - intros (A & B & D & _) c F. apply (found_fun _ _ _ _ A) in F. injection F as <-.
    rewrite resource_header by exact D. destruct D as [_ D]. unfold isize_max in D. lia.
  - intros [A B] c F. apply (found_fun _ _ _ _ A) in F. discriminate F.
Qed.
Lemma kept_tells p st n schema d w : views p st w -> kept_data st n schema d w -> schema_ok st schema ->
  tells p n schema (Some d).
Proof.
  intros V [S D] (U & _ & _ & N). destruct (stored_found p st n schema d w V S N) as [A B]. simpl. auto.
Qed.
Lemma byte_tells p st n schema o w : views p st w -> byte_slot st n schema o w -> schema_ok st schema -> tells p n schema o.
Proof.
  intros V H S. destruct o; [eapply kept_tells; eauto|]. simpl. eapply blank_found; eauto.
Qed.

Lemma part_tells p opt n schema o y : tells p n schema o -> part true p opt n schema y -> shows_bytes o y.
Proof.
  intros T. unfold part, shows_bytes. destruct y as [sl|]; simpl.
  - intros (H & _). apply (tells_holds _ _ _ _ _ T) in H. congruence.
  - intros [_ H]. destruct o as [d|]; auto. destruct (H eq_refl d). apply (tells_holds _ _ _ _ _ T). reflexivity.
Qed.
Lemma sound_tells p n schema o : tells p n schema o -> (sound p n schema <-> o <> None).
Proof.
  intros T. split.
  - intros [d H]. apply (tells_holds _ _ _ _ _ T) in H. congruence.
  - destruct o as [d|]; [|congruence]. intros _. exists d. apply (tells_holds _ _ _ _ _ T). reflexivity.
Qed.

(** * Nothing there *)
Definition void (p : place) : Prop :=
  p = PEmpty \/ exists base w, p = PDisk base w /\ forall k, under base k -> w_files w k = None.
Lemma void_found p n : void p -> valid_name n -> found p n None.
Proof.
  intros [->|(base & w & -> & H)] V; simpl; [reflexivity|].
  rewrite (H (key_of (path_join base n))); [reflexivity|]. apply (under_res 0 base n V).
Qed.
Lemma void_sub p n : void p -> valid_name n -> void (sub_place p n).
Proof.
  intros [->|(base & w & -> & H)] V; simpl; [left; auto|]. right. exists (path_join base n), w. split; [reflexivity|].
  intros k U. apply H. eapply under_sub; eauto.
Qed.
Lemma void_everywhere file (Q : place -> string -> Prop) a : (forall p n, tells p n [] None -> Q p n) ->
  forall p, wf_archive file a -> void p -> everywhere Q a p.
Proof.
  intros HQ. induction a as [name schema ss vs ms rs subs IH] using adesc_deep_ind. intros p Wf V. apply everywhere_eq. split.
  - apply Forall_forall. intros n I. assert (Vn := part_valid _ _ _ Wf I). apply HQ. split; apply void_found; auto using valid_schema.
  - apply Forall_forall. intros x I. destruct (sub_valid _ _ _ Wf I) as [Vx Wx]. rewrite Forall_forall in IH.
    apply IH; auto. apply void_sub; auto.
Qed.
Lemma void_checks file a p : wf_archive file a -> void p -> ~ checks a p.
Proof.
  intros Wf V H. apply checks_eq in H as ((d & c & pad & F & _) & _).
  assert (Vn : valid_name (signature_name (ad_name a))) by (apply signature_valid; apply wf_eq in Wf; tauto).
  apply (found_fun _ _ _ _ (void_found _ _ V Vn)) in F. discriminate F.
Qed.

(** * Opening *)
Definition is_set_v (o : vslot) : bool := match o with VUnset => false | _ => true end.
Lemma vec_tells p st r o v w : views p st w -> vec_slot st r o v w -> schema_ok st (tr_schema r) -> (forall l, o <> VOpen l) ->
  exists x, tells p (tr_name r) (tr_schema r) x /\ (x <> None <-> o <> VUnset) /\
    forall y, shows_bytes x y -> shows_vec r o y.
Proof.
  intros V H S N. destruct o as [|d|l|l]; simpl in H.
  - exists None. split; [apply (byte_tells p st _ _ None w V H S)|]. split; [split; congruence|].
    intros [y|]; [discriminate|]. simpl. auto.
  - exists (Some d). split; [apply (byte_tells p st _ _ (Some d) w V H S)|]. split; [split; congruence|].
    intros [y|] E; [|discriminate]. injection E. simpl. auto.
  - destruct (N l eq_refl).
  - destruct H as (D & K & Ar & Re). exists (Some D). split; [apply (byte_tells p st _ _ (Some D) w V K S)|].
    split; [split; congruence|]. intros [y|] E; [|discriminate]. injection E as <-. simpl. auto.
Qed.
Lemma mul_tells p st r o v w : views p st w -> mul_slot st r o v w -> wf_struct (index_struct (mr_size r) (mr_bits r)) ->
  wf_vdesc (mr_types r) -> mv_schema_ok st (mr_schema r) -> (forall l, o <> MOpen l) ->
  exists x x', tells p (mr_index r) (index_schema (mr_schema r)) x /\ tells p (mr_name r) (mr_schema r) x' /\
    (x <> None <-> o <> MUnset) /\ (x' <> None <-> o <> MUnset) /\
    forall y, shows_bytes x (fst y) -> shows_bytes x' (snd y) ->
      (forall i d, y = (Some i, Some d) -> slice_ok i /\ slice_ok d) -> shows_mul r o y.
Proof.
  intros V H Wi Wt S N. assert (Si := index_schema_ok _ _ S). destruct o as [|l|l]; simpl in H.
  - destruct H as [A B]. exists None, None. split; [apply (byte_tells p st _ _ None w V A Si)|].
    split; [apply (byte_tells p st _ _ None w V B (proj1 S))|]. split; [split; congruence|]. split; [split; congruence|].
    intros [[i|] [d|]]; try discriminate; simpl; auto.
  - destruct (N l eq_refl).
  - destruct H as (bs & Di & Fb & [Re _] & A & B). exists (Some Di), (Some (concat bs)).
    split; [apply (byte_tells p st _ _ (Some Di) w V A Si)|].
    split; [apply (byte_tells p st _ _ (Some (concat bs)) w V B (proj1 S))|]. split; [split; congruence|]. split; [split; congruence|].
    intros [[i|] [d|]] Ei Ed Ok; try discriminate. injection Ei as Ei. injection Ed as Ed. simpl.
    destruct (Ok i d eq_refl) as [Oi Od].
    eapply (parts_show (mr_size r) (mr_bits r) (mr_types r) bs); eauto. rewrite Ei. exact Re.
Qed.

Lemma In_nth_ex {A} (l : list A) x : In x l -> exists k, nth_error l k = Some x.
Proof. apply In_nth_error. Qed.

Lemma sim_opens file a : forall st A s w p, wf_archive file a -> is_file st = file -> sim a st A s w -> finished A ->
  views p st w ->
  everywhere readable a p /\ everywhere tame a p /\ (checks a p <-> sufficient a A) /\
  (forall x, opened true a p x -> shows_plan a A x).
Proof.
  induction a as [name schema ss vs ms rs subs IH] using adesc_deep_ind.
  set (a := mkArchive name schema ss vs ms rs subs) in *. intros st A s w p Wf Fl Hs Fin V.
  assert (Ws := Wf). apply wf_eq in Ws. destruct Ws as (_ & Wsig & _ & Ws & Wv & Wm & Wr & _ & Wu).
  assert (Hs' := Hs). apply sim_eq in Hs'. destruct Hs' as (_ & _ & S & U).
  inversion Fin as [A0 Fv Fm Fu E0]. subst A0.
  assert (Tsig : tells p (signature_name (ad_name a)) (ad_schema a) (Some [])).
  { eapply kept_tells; [exact V|split; [exact (S SSig)|]|eapply schema_ok_like; eauto]. split; [constructor|discriminate]. }
  assert (Tst : forall k r, nth_error (ad_structs a) k = Some r -> tells p (tr_name r) (tr_schema r) (pl_structs A k)).
  { intros k r Hk. specialize (S (SStruct k)). cbn [slot_ok] in S. rewrite Hk in S. cbn [at_slot] in S.
    rewrite Forall_forall in Ws. destruct (Ws r (nth_error_In _ _ Hk)) as [_ So].
    eapply byte_tells; eauto. eapply schema_ok_like; eauto. }
  assert (Trw : forall k r, nth_error (ad_raws a) k = Some r -> tells p (rr_name r) (rr_schema r) (pl_raws A k)).
  { intros k r Hk. specialize (S (SRaw k)). cbn [slot_ok] in S. rewrite Hk in S. cbn [at_slot] in S.
    rewrite Forall_forall in Wr. destruct (Wr r (nth_error_In _ _ Hk)) as [_ So].
    eapply byte_tells; eauto. eapply schema_ok_like; eauto. }
  assert (Tv : forall k r, nth_error (ad_vectors a) k = Some r ->
     exists x, tells p (tr_name r) (tr_schema r) x /\ (x <> None <-> pl_vecs A k <> VUnset) /\
       forall y, shows_bytes x y -> shows_vec r (pl_vecs A k) y).
  { intros k r Hk. specialize (S (SVec k)). cbn [slot_ok] in S. rewrite Hk in S. cbn [at_slot] in S.
    rewrite Forall_forall in Wv. destruct (Wv r (nth_error_In _ _ Hk)) as [[_ So] _].
    eapply vec_tells; eauto. eapply schema_ok_like; eauto. }
  assert (Tm : forall k r, nth_error (ad_multis a) k = Some r ->
     exists x x', tells p (mr_index r) (index_schema (mr_schema r)) x /\ tells p (mr_name r) (mr_schema r) x' /\
       (x <> None <-> pl_muls A k <> MUnset) /\ (x' <> None <-> pl_muls A k <> MUnset) /\
       forall y, shows_bytes x (fst y) -> shows_bytes x' (snd y) ->
         (forall i d, y = (Some i, Some d) -> slice_ok i /\ slice_ok d) -> shows_mul r (pl_muls A k) y).
  { intros k r Hk. specialize (S (SMul k)). cbn [slot_ok] in S. rewrite Hk in S. cbn [at_slot] in S.
    rewrite Forall_forall in Wm. destruct (Wm r (nth_error_In _ _ Hk)) as (_ & _ & So & Wi & Wt & _).
    eapply mul_tells; eauto. eapply mv_schema_ok_like; eauto. }
  assert (Tu : forall k x, nth_error (ad_subs a) k = Some x ->
     let p' := sub_place p (fst (fst x)) in
     everywhere readable (snd (fst x)) p' /\ everywhere tame (snd (fst x)) p' /\
     match pl_subs A k with
     | None => ~ checks (snd (fst x)) p'
     | Some A' => (checks (snd (fst x)) p' <-> sufficient (snd (fst x)) A') /\
         (forall y, opened true (snd (fst x)) p' y -> shows_plan (snd (fst x)) A' y)
     end).
  { intros k x Hk p'. assert (I := nth_error_In _ _ Hk). destruct (sub_valid _ _ _ Wf I) as [Vx Wx].
    specialize (U k x Hk). unfold sub_sim in U. destruct (pl_subs A k) as [A'|] eqn:Ek.
    - destruct U as (Fs & id' & s' & _ & H). rewrite Forall_forall in IH.
      destruct st as [id base|id base]; [discriminate|]. cbn [st_base] in H.
      assert (V' : views p' (FileStorage id' (path_join base (fst (fst x)))) w).
      { right. exists id', (path_join base (fst (fst x))). split; [reflexivity|].
        destruct V as [->|(i & bs & [= <- <-] & ->)]; reflexivity. }
      destruct (IH x I (FileStorage id' (path_join base (fst (fst x)))) _ _ _ _ Wx Fl H (Fu _ _ Ek) V') as (P & Q & R & T). auto.
    - assert (Vo : void p').
      { destruct st as [id base|id base].
        - left. destruct V as [->|(i & bs & E & _)]; [reflexivity|discriminate E].
        - right. exists (path_join base (fst (fst x))), w. split; [|exact U].
          destruct V as [->|(i & bs & [= <- <-] & ->)]; reflexivity. }
      split; [|split].
      + eapply void_everywhere; eauto. intros q n T. eapply tells_readable; eauto.
      + eapply void_everywhere; eauto. intros q n T. eapply tells_tame; eauto.
      + eapply void_checks; eauto. }
  assert (All : forall Q : place -> string -> Prop, (forall n sch o, tells p n sch o -> Q p n) -> Forall (Q p) (part_names a)).
  { intros Q HQ. apply part_names_all. split; [eapply HQ; eauto|]. rewrite !Forall_forall.
    split; [|split; [|split]]; intros r I; apply In_nth_ex in I as [k Hk].
    - eapply HQ; eauto.
    - destruct (Tv k r Hk) as (x & T & _). eapply HQ; eauto.
    - destruct (Tm k r Hk) as (x & x' & T & T' & _). split; eapply HQ; eauto.
    - eapply HQ; eauto. }
  assert (Rd : everywhere readable a p).
  { apply everywhere_eq. split; [apply All; intros; eapply tells_readable; eauto|].
    apply Forall_forall. intros x I. apply In_nth_ex in I as [k Hk]. apply (Tu k x Hk). }
  assert (Tt : everywhere tame a p).
  { apply everywhere_eq. split; [apply All; intros; eapply tells_tame; eauto|].
    apply Forall_forall. intros x I. apply In_nth_ex in I as [k Hk]. apply (Tu k x Hk). }
  split; [exact Rd|]. split; [exact Tt|]. split.
  - rewrite checks_eq, sufficient_eq. split.
    + intros (_ & Hsv & Hm & Hr & Hu). split; [|split; [|split; [|split]]].
      * intros k r Hk O. apply (sound_tells _ _ _ _ (Tst k r Hk)). apply Hsv; auto.
        apply in_or_app. left. eapply nth_error_In; eauto.
      * intros k r Hk O. destruct (Tv k r Hk) as (x & T & E & _). apply E, (sound_tells _ _ _ _ T). apply Hsv; auto.
        apply in_or_app. right. eapply nth_error_In; eauto.
      * intros k r Hk O. destruct (Tm k r Hk) as (x & x' & T & T' & E & _). apply E, (sound_tells _ _ _ _ T).
        apply Hm; auto. eapply nth_error_In; eauto.
      * intros k r Hk O. apply (sound_tells _ _ _ _ (Trw k r Hk)). apply Hr; auto. eapply nth_error_In; eauto.
      * intros k x Hk O. rewrite Forall_forall in Hu. specialize (Hu x (nth_error_In _ _ Hk) O).
        destruct (Tu k x Hk) as (_ & _ & T). destruct (pl_subs A k); [apply T; exact Hu|auto].
    + intros (Hs1 & Hv & Hm & Hr & Hu). split; [apply (sound_tells _ _ _ _ Tsig); discriminate|]. split; [|split; [|split]].
      * intros r I O. apply in_app_or in I as [I|I]; apply In_nth_ex in I as [k Hk].
        -- apply (sound_tells _ _ _ _ (Tst k r Hk)). eapply Hs1; eauto.
        -- destruct (Tv k r Hk) as (x & T & E & _). apply (sound_tells _ _ _ _ T), E. eapply Hv; eauto.
      * intros r I O. apply In_nth_ex in I as [k Hk]. destruct (Tm k r Hk) as (x & x' & T & T' & E & E' & _). split.
        -- apply (sound_tells _ _ _ _ T), E. eapply Hm; eauto.
        -- apply (sound_tells _ _ _ _ T'), E'. eapply Hm; eauto.
      * intros r I O. apply In_nth_ex in I as [k Hk]. apply (sound_tells _ _ _ _ (Trw k r Hk)). eapply Hr; eauto.
      * apply Forall_forall. intros x I O. apply In_nth_ex in I as [k Hk]. specialize (Hu k x Hk O).
        destruct (Tu k x Hk) as (_ & _ & T). destruct (pl_subs A k); [apply T; exact Hu|destruct Hu].
  - intros x Hx. apply opened_eq in Hx as (_ & Xs & Xv & Xm & Xr & Xu). apply shows_plan_eq. split; [|split; [|split; [|split]]].
    + intros k r Hk. apply (nth_error_Forall2 _ _ _ _ _ None Xs) in Hk as Hp. eapply part_tells; eauto.
    + intros k r Hk. apply (nth_error_Forall2 _ _ _ _ _ None Xv) in Hk as Hp. destruct (Tv k r Hk) as (o & T & _ & Sh).
      apply Sh. eapply part_tells; eauto.
    + intros k r Hk. apply (nth_error_Forall2 _ _ _ _ _ (None, None) Xm) in Hk as Hp.
      destruct (Tm k r Hk) as (o & o' & T & T' & _ & _ & Sh). destruct Hp as [P P']. apply Sh.
      * eapply part_tells; eauto.
      * eapply part_tells; eauto.
      * intros i d E. rewrite E in P, P'. split; [apply P|apply P'].
    + intros k r Hk. apply (nth_error_Forall2 _ _ _ _ _ None Xr) in Hk as Hp. eapply part_tells; eauto.
    + intros k y Hk. apply (nth_error_Forall2 _ _ _ _ _ None Xu) in Hk as Hp. destruct (Tu k y Hk) as (R & _ & T).
      unfold sub_shows, sub_part in *. destruct (nth k (ar_subs x) None) as [x'|].
      * assert (C := opened_checks _ _ _ _ Hp). destruct (pl_subs A k) as [A'|]; [|destruct (T C)].
        exists A'. split; [reflexivity|]. split; [apply T; exact C|apply T; exact Hp].
      * intros A' Ek. rewrite Ek in T. intros Su. apply T in Su. destruct Hp as [_ Hp].
        destruct (proj1 (opened_dec _ _ R) Su) as [x' Hx']. exact (Hp eq_refl x' Hx').
Qed.

Lemma build_open b e b' e' lim a st w st' w1 ops A flags s' w2 :
  wf_archive (is_file st) a -> maps_ok w -> unused_storage st w ->
  builder_new b e a st w = (Ret (Ok st'), w1) ->
  history (is_file st) a no_plan ops A -> finished A ->
  brun b e lim a ops (new_bstate st') w1 = (Ret (flags, s'), w2) -> Forall (eq true) flags ->
  (exists r w3, open_archive b' e' a st (set_faults [] w2) = (Ret r, w3) /\
     ((exists x, r = Ok x) <-> sufficient a A) /\ forall x, r = Ok x -> shows_plan a A x) /\
  (forall id base, st = FileStorage id base -> exists r, fresh_open b' e' a base w2 = Ret r /\
     ((exists x, r = Ok x) <-> sufficient a A) /\ forall x, r = Ok x -> shows_plan a A x).
Proof.
  intros Wf M Un R Hh Fin Rr Ht.
  destruct (builder_new_ok _ b e a st w st' w1 Wf eq_refl M Un R) as (-> & S1 & _ & M1).
  destruct (brun_ok _ b e lim a ops st _ _ _ _ _ _ _ Wf eq_refl M1 S1 Hh Rr Ht) as (S2 & _ & M2).
  split.
  - assert (S3 : sim a st A s' (set_faults [] w2)).
    { eapply (sim_frame _ nothing); [exact Wf|exact S2|apply touches_frame, touches_faults|]. intros c _ []. }
    destruct (sim_opens _ a st A s' _ (PStorage st (set_faults [] w2)) Wf eq_refl S3 Fin (or_introl eq_refl)) as (P & Q & C & O).
    destruct (open_exact b' e' a st (set_faults [] w2)) as (r & w3 & E & X & Y); auto.
    { apply sim_eq in S3. tauto. }
    exists r, w3. split; [exact E|]. split; [rewrite X; exact C|auto].
  - intros id base ->.
    destruct (sim_opens _ a _ A s' w2 (PDisk base w2) Wf eq_refl S2 Fin) as (P & Q & C & O).
    { right. eauto. }
    change (fresh_open b' e' a base w2) with (fst (open_archive b' e' a (FileStorage 0 base) (reader_world w2))).
    destruct (open_exact_at b' e' a (FileStorage 0 base) (reader_world w2) (PDisk base w2)) as (r & w' & -> & X & Y); auto.
    + apply represents_disk.
    + exists r. split; [reflexivity|]. split; [rewrite X; exact C|auto].
Qed.

(** * Getters *)
Lemma getters_show_plan a A x : shows_plan a A x ->
  (forall k r, nth_error (ad_structs a) k = Some r ->
     match get_struct x k, pl_structs A k with
     | Some m, Some d => firstn (length d) m = d
     | None, None => True
     | _, _ => False
     end) /\
  (forall k r, nth_error (ad_vectors a) k = Some r -> shows_vec r (pl_vecs A k) (get_vector x k)) /\
  (forall k r, nth_error (ad_multis a) k = Some r ->
     match get_multi x k, pl_muls A k with
     | Some v, MClosed l => mav_shows (mr_types r) (mr_size r) (mr_bits r) v (buckets (mr_types r) l)
     | None, MUnset => True
     | _, _ => False
     end) /\
  (forall k r, nth_error (ad_raws a) k = Some r -> option_map sl_bytes (get_raw x k) = pl_raws A k) /\
  (forall k n a' opt, nth_error (ad_subs a) k = Some (n, a', opt) ->
     match get_sub x k with
     | Some x' => exists A', pl_subs A k = Some A' /\ sufficient a' A' /\ shows_plan a' A' x'
     | None => forall A', pl_subs A k = Some A' -> ~ sufficient a' A'
     end).
Proof.
  rewrite shows_plan_eq. intros (Hs & Hv & Hm & Hr & Hu). split; [|split; [|split; [|split]]].
  - intros k r Hk. specialize (Hs k r Hk). unfold get_struct, shows_bytes in *.
    destruct (nth k (ar_structs x) None) as [sl|]; cbn [option_map] in *; rewrite <- Hs; [|exact I].
    unfold sl_bytes. rewrite firstn_length.
    destruct (Nat.min_spec (Z.to_nat (sl_len sl)) (length (sl_mem sl))) as [[_ ->]|[L ->]]; [reflexivity|].
    rewrite firstn_all. symmetry. apply firstn_all2. exact L.
  - exact Hv.
  - intros k r Hk. specialize (Hm k r Hk). unfold get_multi, shows_mul in *.
    destruct (pl_muls A k), (nth k (ar_multis x) (None, None)) as [[i|] [d|]]; try contradiction; auto.
  - exact Hr.
  - intros k n a' opt Hk. exact (Hu k _ Hk).
Qed.
