(** What a builder leaves depends on the data only. *)
From Verif Require Import Base BaseFacts Codec CodecSpec CodecFacts Structs StructsSpec StructsFacts Views ViewsSpec ViewsFacts.
From Verif Require Import Storage PathFacts StorageSpec StorageFacts StorageMore StorageUse Writers WritersSpec HandleFacts EncodeFacts.
From Verif Require Import ElsewhereFacts ExtVecFacts ExtVecUse MultiViews MultiSpec MultiViewFacts MultiViewUse MultiVecFacts MultiVecUse.
From Verif Require Import Archives ArchiveSpec ArchiveFacts BuilderSpec BuilderFacts BuilderUse DirFacts BuilderProgress ReproSpec.
Local Open Scope list_scope.
Local Open Scope Z_scope.
Local Arguments firstn : simpl never.

(** * The bytes of a bucket are determined by its values *)
Lemma v_struct_wf ts t : wf_vdesc ts -> (t < length ts)%nat -> wf_struct (v_struct ts t).
Proof.
  intros [F _] H. unfold v_struct. rewrite Forall_forall in F. apply F, nth_In. exact H.
Qed.
Lemma item_encodes_fun ts m m' x : wf_vdesc ts -> item_encodes ts m x -> item_encodes ts m' x -> m = m'.
Proof.
  intros W ([L _] & y & -> & E) (_ & y' & -> & E'). f_equal. eapply encodes_fun; eauto. apply v_struct_wf; auto.
Qed.
Lemma bucket_fun ts m m' l : wf_vdesc ts -> bucket_of ts m l -> bucket_of ts m' l -> m = m'.
Proof.
  intros W (ms & -> & F) (ms' & -> & F'). f_equal. revert ms' F'.
  induction F as [|m r ms l E F IH]; intros ms' F'; inversion F'; subst; auto.
  f_equal; auto. eapply item_encodes_fun; eauto.
Qed.
Lemma buckets_fun ts bs bs' l : wf_vdesc ts -> Forall2 (bucket_of ts) bs l -> Forall2 (bucket_of ts) bs' l -> bs = bs'.
Proof.
  intros W F. revert bs'. induction F as [|m r ms l E F IH]; intros ms' F'; inversion F'; subst; auto.
  f_equal; auto. eapply bucket_fun; eauto.
Qed.

(** * Slots *)
Definition alike (st st' : storage) (n : string) (w w' : world) : Prop :=
  bytes_at (cell_at st n) w = bytes_at (cell_at st' n) w' /\
  bytes_at (cell_at st (schema_name n)) w = bytes_at (cell_at st' (schema_name n)) w'.
Lemma blank_alike st st' n w w' : blank st n w -> blank st' n w' -> alike st st' n w w'.
Proof. intros (_ & A & B) (_ & C & D). split; congruence. Qed.
Lemma stored_alike st st' n sch d w w' : stored st n sch d w -> stored st' n sch d w' -> alike st st' n w w'.
Proof. intros (A & B & _) (C & D & _). split; congruence. Qed.
Lemma kept_alike st st' n sch d d' w w' : kept_data st n sch d w -> kept_data st' n sch d' w' -> d = d' -> alike st st' n w w'.
Proof. intros [A _] [B _] <-. eapply stored_alike; eauto. Qed.
Lemma byte_alike st st' n sch o w w' : byte_slot st n sch o w -> byte_slot st' n sch o w' -> alike st st' n w w'.
Proof. destruct o; intros A B; [eapply kept_alike; eauto|apply blank_alike; auto]. Qed.
Lemma vec_alike st st' r o o' v v' w w' : wf_struct (tr_struct r) -> vec_slot st r o v w -> vec_slot st' r o' v' w' ->
  same_vec (tr_struct r) o o' -> alike st st' (tr_name r) w w'.
Proof.
  intros W. destruct o as [|d|l|l], o' as [|d'|l'|l']; cbn [vec_slot same_vec]; intros H H' E; try contradiction E.
  - apply blank_alike; auto.
  - eapply kept_alike; eauto.
  - destruct H' as (D & K & Ar & _). eapply kept_alike; eauto. eapply array_fun; eauto.
  - destruct H as (D & K & Ar & _). eapply kept_alike; eauto. eapply array_fun; eauto.
  - destruct H as (D & K & Ar & _), H' as (D' & K' & Ar' & _). rewrite <- E in Ar'.
    eapply kept_alike; eauto. eapply array_fun; eauto.
Qed.
Lemma mul_alike st st' r o o' v v' w w' : wf_struct (index_struct (mr_size r) (mr_bits r)) -> wf_vdesc (mr_types r) ->
  mul_slot st r o v w -> mul_slot st' r o' v' w' -> same_mul (mr_types r) o o' ->
  alike st st' (mr_index r) w w' /\ alike st st' (mr_name r) w w'.
Proof.
  intros W Wt. destruct o as [|l|l], o' as [|l'|l']; cbn [mul_slot same_mul]; intros H H' E; try contradiction E.
  - destruct H, H'. split; apply blank_alike; auto.
  - destruct H as (bs & Di & Fb & [_ Ar] & Ki & Kd), H' as (bs' & Di' & Fb' & [_ Ar'] & Ki' & Kd').
    rewrite <- E in Fb'. assert (X := buckets_fun _ _ _ _ Wt Fb Fb'). rewrite <- X in Ar', Kd'.
    split; eapply kept_alike; eauto. eapply array_fun; eauto.
Qed.

Lemma slot_alike a st st' A A' s s' w w' sl n : wf_archive (is_file st) a -> same_plan a A A' ->
  slot_ok a st A s sl w -> slot_ok a st' A' s' sl w' -> In n (slot_names a sl) -> alike st st' n w w'.
Proof.
  intros Wf Sp H H'. apply wf_eq in Wf as (_ & _ & _ & Ws & Wv & Wm & Wr & _ & _). rewrite Forall_forall in Wv, Wm.
  inversion Sp as [a0 A0 A0' P1 P2 P3 P4 _ _]; subst. destruct sl as [|k|k|k|k]; cbn [slot_ok slot_names] in *.
  - intros [<-|[]]. eapply stored_alike; eauto.
  - destruct (nth_error (ad_structs a) k) as [r|] eqn:E; [|intros []]. cbn [at_slot opt_list] in *. intros [<-|[]].
    rewrite <- (P1 k r E) in H'. eapply byte_alike; eauto.
  - destruct (nth_error (ad_vectors a) k) as [r|] eqn:E; [|intros []]. cbn [at_slot opt_list] in *. intros [<-|[]].
    eapply vec_alike; eauto. apply (Wv r (nth_error_In _ _ E)).
  - destruct (nth_error (ad_multis a) k) as [r|] eqn:E; [|intros []]. cbn [at_slot opt_list] in *.
    destruct (Wm r (nth_error_In _ _ E)) as (_ & _ & _ & Wi & Wt & _).
    destruct (mul_alike _ _ _ _ _ _ _ _ _ Wi Wt H H' (P3 k r E)) as [X Y]. intros [<-|[<-|[]]]; auto.
  - destruct (nth_error (ad_raws a) k) as [r|] eqn:E; [|intros []]. cbn [at_slot opt_list] in *. intros [<-|[]].
    rewrite <- (P4 k r E) in H'. eapply byte_alike; eauto.
Qed.

Lemma sim_alike a st st' A A' s s' w w' n : wf_archive (is_file st) a -> same_plan a A A' ->
  sim a st A s w -> sim a st' A' s' w' -> In n (part_names a) -> alike st st' n w w'.
Proof.
  intros Wf Sp H H' I. apply sim_eq in H as (_ & _ & S & _). apply sim_eq in H' as (_ & _ & S' & _).
  rewrite names_slots in I. apply in_flat_map in I as (sl & _ & I). eapply slot_alike; eauto.
Qed.

(** * Directories *)
Lemma inside_res id base n : valid_name n -> res_key (FileStorage id base) n = inside base [n].
Proof. intros V. rewrite res_key_valid by exact V. reflexivity. Qed.
Lemma inside_join base n q : valid_name n -> inside (path_join base n) q = inside base (n :: q).
Proof. intros V. unfold inside. rewrite key_join by exact V. cbn [fst snd]. rewrite <- app_assoc. reflexivity. Qed.
Lemma under_inside base n q : under base (inside base (n :: q)).
Proof. exists n, q. reflexivity. Qed.

Lemma sim_path p : forall a id base id' base' A A' s s' w w' a' n f,
  wf_archive true a -> same_plan a A A' ->
  sim a (FileStorage id base) A s w -> sim a (FileStorage id' base') A' s' w' ->
  find_path a p = Some a' -> In n (part_names a') -> f = n \/ f = schema_name n ->
  w_files w (inside base (p ++ [f])) = w_files w' (inside base' (p ++ [f])).
Proof.
  induction p as [|m p IH]; intros a id base id' base' A A' s s' w w' a' n f Wf Sp H H' Hp In_ Hf; cbn [find_path app] in *.
  - injection Hp as <-. assert (V := part_valid _ _ _ Wf In_).
    destruct (sim_alike a (FileStorage id base) (FileStorage id' base') A A' s s' w w' n Wf Sp H H' In_) as [X Y].
    cbn [cell_at bytes_at] in X, Y. rewrite !inside_res in X, Y by auto using valid_schema. destruct Hf as [->| ->]; auto.
  - destruct (sub_of a m) as [a1|] eqn:E; [|discriminate]. apply sub_of_In in E as [o I].
    destruct (sub_valid _ _ _ Wf I) as [V Wa]. cbn in V, Wa. apply In_nth_ex in I as [k Hk].
    apply sim_eq in H as (_ & _ & _ & U). apply sim_eq in H' as (_ & _ & _ & U').
    specialize (U k _ Hk). specialize (U' k _ Hk). unfold sub_sim in U, U'. cbn [fst snd] in U, U'.
    inversion Sp as [a0 A0 A0' _ _ _ _ P5 P6]; subst. specialize (P5 k _ Hk).
    destruct (pl_subs A k) as [B|] eqn:EB, (pl_subs A' k) as [B'|] eqn:EB'.
    + destruct U as (_ & i & t & _ & U), U' as (_ & i' & t' & _ & U'). cbn [st_base] in U, U'.
      specialize (IH a1 i _ i' _ B B' t t' w w' a' n f Wa (P6 k _ B B' Hk EB EB') U U' Hp In_ Hf).
      rewrite !inside_join in IH by exact V. exact IH.
    + destruct P5 as [_ P5]. discriminate (P5 eq_refl).
    + destruct P5 as [P5 _]. discriminate (P5 eq_refl).
    + simpl in U, U'. destruct (p ++ [f]) as [|x q] eqn:Eq; [destruct p; discriminate|].
      rewrite <- (inside_join base), <- (inside_join base') by exact V. rewrite (U _ (under_inside _ x q)), (U' _ (under_inside _ x q)). reflexivity.
Qed.

Lemma sim_tree a id base id' base' A A' s s' w w' : wf_archive true a -> same_plan a A A' ->
  sim a (FileStorage id base) A s w -> sim a (FileStorage id' base') A' s' w' ->
  room a base w -> room a base' w' -> same_tree base w base' w'.
Proof.
  intros Wf Sp H H' (_ & _ & _ & R) (_ & _ & _ & R') q Hq.
  assert (X : is_file_path a q -> w_files w (inside base q) = w_files w' (inside base' q)).
  { intros (p & a' & f & n & -> & Hp & In_ & Hf). eapply sim_path; eauto. }
  destruct (w_files w (inside base q)) as [c|] eqn:E; [apply X, R; [exact Hq|]|].
  - change (at_key base q) with (inside base q). congruence.
  - destruct (w_files w' (inside base' q)) as [c|] eqn:E'; [|reflexivity]. apply X, R'; [exact Hq|].
    change (at_key base' q) with (inside base' q). congruence.
Qed.

(** * Whole builds *)
Lemma build_sim b e lim a st w w1 ops A flags s' w2 : wf_archive (is_file st) a -> maps_ok w -> unused_storage st w ->
  builder_new b e a st w = (Ret (Ok st), w1) -> history (is_file st) a no_plan ops A ->
  brun b e lim a ops (new_bstate st) w1 = (Ret (flags, s'), w2) -> Forall (eq true) flags -> sim a st A s' w2.
Proof.
  intros Wf M Un R Hh Rr Ht. destruct (builder_new_ok _ b e a st w st w1 Wf eq_refl M Un R) as (_ & S1 & _ & M1).
  destruct (brun_ok _ b e lim a ops st _ _ _ _ _ _ _ Wf eq_refl M1 S1 Hh Rr Ht) as (S2 & _ & _). exact S2.
Qed.
Lemma flags_true n : Forall (eq true) (repeat true n).
Proof. induction n; constructor; auto. Qed.
