(** The log of a builder, file by file. *)
From Verif Require Import Base BaseFacts Codec CodecSpec Structs StructsSpec Views ViewsSpec.
From Verif Require Import Storage PathFacts StorageSpec StorageFacts StorageUse Writers WritersSpec MultiViews MultiSpec MultiVecFacts MultiVecUse.
From Verif Require Import Archives ArchiveSpec ArchiveFacts BuilderSpec BuilderFacts MomentSpec MomentFacts MomentLogs MomentUse DuringSpec.
Local Open Scope list_scope.
Local Open Scope Z_scope.

Definition file_key (base n : string) : key := res_key (FileStorage 0 base) n.

(** Nothing outside of [P] is touched. *)
Definition within (P : key -> Prop) (L : list effect) : Prop := forall k, ~ P k -> away k L.
Lemma within_app P L1 L2 : within P L1 -> within P L2 -> within P (L1 ++ L2).
Proof. intros A B k N. apply away_app; auto. Qed.
Lemma within_mono (P Q : key -> Prop) L : (forall k, P k -> Q k) -> within P L -> within Q L.
Proof. intros H A k N. apply A. auto. Qed.
Lemma within_nil P : within P [].
Proof. intros k _. constructor. Qed.

(** * Slots *)
Definition no_log (base n : string) (L : list effect) : Prop :=
  away (file_key base n) L /\ away (file_key base (schema_name n)) L.
Definition file_log (base n : string) (schema d : list Z) (L : list effect) : Prop :=
  growing (file_key base n) L (resource_bytes d) /\ growing (file_key base (schema_name n)) L schema.
Definition byte_log base n schema (o : option (list Z)) L : Prop :=
  match o with None => no_log base n L | Some d => file_log base n schema d L end.
Definition vec_log (id : nat) base (r : typed_res) (o : vslot) (v : option ext_vec) L : Prop :=
  let kd := file_key base (tr_name r) in let ks := file_key base (schema_name (tr_name r)) in
  match o with
  | VUnset => no_log base (tr_name r) L
  | VSet d => file_log base (tr_name r) (tr_schema r) d L
  | VOpen _ => exists v' d, v = Some v' /\ ev_on v' kd (8 + len d) id base /\
      growing kd L (zeros 8 ++ d) /\ growing ks L (tr_schema r)
  | VClosed _ => sealed_log kd ks (tr_schema r) L
  end.
Definition mul_log (id : nat) base (r : multi_res) (o : mslot) (v : option multi_vec) L : Prop :=
  let kd := file_key base (mr_name r) in let ks := file_key base (schema_name (mr_name r)) in
  let ki := file_key base (index_name (mr_name r)) in let kis := file_key base (schema_name (index_name (mr_name r))) in
  match o with
  | MUnset => no_log base (mr_name r) L /\ no_log base (index_name (mr_name r)) L
  | MOpen _ => exists v' di dd, v = Some v' /\ mv_on v' ki kd (8 + len di) (8 + len dd) id base /\
      growing kd L (zeros 8 ++ dd) /\ growing ks L (mr_schema r) /\
      growing ki L (zeros 8 ++ di) /\ growing kis L (index_schema (mr_schema r))
  | MClosed _ => sealed_log kd ks (mr_schema r) L /\ sealed_log ki kis (index_schema (mr_schema r)) L /\ index_last kd ki L
  end.
Definition slot_log (id : nat) (a : adesc) base (A : plan) (s : bstate) (sl : slot) L : Prop :=
  match sl with
  | SSig => file_log base (signature_name (ad_name a)) (ad_schema a) [] L
  | SStruct k => at_slot (nth_error (ad_structs a) k) (fun r => byte_log base (tr_name r) (tr_schema r) (pl_structs A k) L)
  | SVec k => at_slot (nth_error (ad_vectors a) k) (fun r => vec_log id base r (pl_vecs A k) (bs_vecs s k) L)
  | SMul k => at_slot (nth_error (ad_multis a) k) (fun r => mul_log id base r (pl_muls A k) (bs_muls s k) L)
  | SRaw k => at_slot (nth_error (ad_raws a) k) (fun r => byte_log base (rr_name r) (rr_schema r) (pl_raws A k) L)
  end.

(** More log, before or after, that does not concern the file. *)
Definition extends (k : key) (L L' : list effect) : Prop :=
  exists L1 L2, L' = L1 ++ L ++ L2 /\ away k L1 /\ away k L2.
Lemma extends_away k L L' : extends k L L' -> away k L -> away k L'.
Proof. intros (L1 & L2 & -> & A & B) H. repeat apply away_app; auto. Qed.
Lemma extends_growing k L L' T : extends k L L' -> growing k L T -> growing k L' T.
Proof. intros (L1 & L2 & -> & A & B) H. apply away_growing; auto. apply growing_away; auto. Qed.
Lemma extends_sealed kd ks schema L L1 L2 : away kd L1 -> away kd L2 -> away ks L1 -> away ks L2 ->
  sealed_log kd ks schema L -> sealed_log kd ks schema (L1 ++ L ++ L2).
Proof.
  intros A B C D (G & d & n & E). split.
  - apply away_growing; auto. apply growing_away; auto.
  - exists d, n. apply away_ended; auto. apply ended_away; auto.
Qed.
Lemma extends_index_last kd ki L L1 L2 : away kd L1 -> away kd L2 -> away ki L1 ->
  index_last kd ki L -> index_last kd ki (L1 ++ L ++ L2).
Proof.
  intros A B C (X & E & Y & d & n & I & -> & S & G & H & F). exists (L1 ++ X), E, (Y ++ L2), d, n, I.
  split; [rewrite <- !app_assoc; reflexivity|]. split; auto. split; [apply away_growing; auto|].
  split; [apply away_growing; auto|]. apply away_ended; auto. apply ended_away; auto.
Qed.

Definition apart_from (base : string) (names : list string) (L : list effect) : Prop :=
  forall n, In n names -> no_log base n L.

Lemma slot_log_extend file id a base A s sl L L1 L2 : wf_archive file a ->
  apart_from base (slot_names a sl) L1 -> apart_from base (slot_names a sl) L2 ->
  slot_log id a base A s sl L -> slot_log id a base A s sl (L1 ++ L ++ L2).
Proof.
  intros Wf A1 A2.
  assert (X : forall n, In n (slot_names a sl) -> extends (file_key base n) L (L1 ++ L ++ L2) /\
     extends (file_key base (schema_name n)) L (L1 ++ L ++ L2)).
  { intros n I. destruct (A1 n I), (A2 n I). split; exists L1, L2; auto. }
  assert (No : forall n, In n (slot_names a sl) -> no_log base n L -> no_log base n (L1 ++ L ++ L2)).
  { intros n I [B C]. destruct (X n I). split; eapply extends_away; eauto. }
  assert (Fi : forall n schema d, In n (slot_names a sl) -> file_log base n schema d L -> file_log base n schema d (L1 ++ L ++ L2)).
  { intros n schema d I [B C]. destruct (X n I). split; eapply extends_growing; eauto. }
  assert (By : forall n schema o, In n (slot_names a sl) -> byte_log base n schema o L -> byte_log base n schema o (L1 ++ L ++ L2)).
  { intros n schema [d|] I; simpl; auto. }
  destruct sl as [|k|k|k|k]; cbn [slot_log slot_names] in *.
  - apply Fi. left; auto.
  - destruct (nth_error (ad_structs a) k); cbn [at_slot opt_list] in *; auto. apply By. left; auto.
  - destruct (nth_error (ad_vectors a) k) as [r|]; cbn [at_slot opt_list] in *; auto.
    destruct (X _ (or_introl eq_refl)) as [X1 X2]. destruct (A1 _ (or_introl eq_refl)), (A2 _ (or_introl eq_refl)).
    destruct (pl_vecs A k); simpl.
    + apply No. left; auto.
    + apply Fi. left; auto.
    + intros (v' & d & E & On & G1 & G2). exists v', d. split; auto. split; auto. split; eapply extends_growing; eauto.
    + apply extends_sealed; auto.
  - destruct (nth_error (ad_multis a) k) as [r|] eqn:E; cbn [at_slot opt_list] in *; auto.
    assert (En : mr_index r = index_name (mr_name r)).
    { apply wf_eq in Wf. destruct Wf as (_ & _ & _ & _ & _ & Hm & _). rewrite Forall_forall in Hm.
      apply nth_error_In in E. apply (Hm r E). }
    rewrite En in *.
    destruct (X _ (or_introl eq_refl)) as [X1 X2]. destruct (A1 _ (or_introl eq_refl)), (A2 _ (or_introl eq_refl)).
    destruct (X _ (or_intror (or_introl eq_refl))) as [X3 X4]. destruct (A1 _ (or_intror (or_introl eq_refl))), (A2 _ (or_intror (or_introl eq_refl))).
    destruct (pl_muls A k); simpl.
    + intros [Y Z]. split; apply No; simpl; auto.
    + intros (v' & di & dd & Ev & On & G1 & G2 & G3 & G4). exists v', di, dd. split; auto. split; auto.
      repeat split; eapply extends_growing; eauto.
    + intros (S1 & S2 & S3). split; [apply extends_sealed; auto|]. split; [apply extends_sealed; auto|]. apply extends_index_last; auto.
  - destruct (nth_error (ad_raws a) k); cbn [at_slot opt_list] in *; auto. apply By. left; auto.
Qed.

(** * Builders and their logs *)
Inductive tsim : adesc -> string -> plan -> bstate -> list effect -> Prop := TSim a base A s L id :
  bs_st s = FileStorage id base ->
  (forall sl, slot_log id a base A s sl L) ->
  (forall k x, nth_error (ad_subs a) k = Some x -> pl_subs A k = None ->
     forall k', under (path_join base (fst (fst x))) k' -> away k' L) ->
  (forall k x A', nth_error (ad_subs a) k = Some x -> pl_subs A k = Some A' -> bs_subs s k <> None) ->
  (forall k x A' s', nth_error (ad_subs a) k = Some x -> pl_subs A k = Some A' -> bs_subs s k = Some s' ->
     tsim (snd (fst x)) (path_join base (fst (fst x))) A' s' L) ->
  tsim a base A s L.

Lemma under_file base n : valid_name n -> under base (file_key base n).
Proof. apply under_res. Qed.

Lemma under_apart base names L : (forall n, In n names -> valid_name n) -> (forall k, under base k -> away k L) -> apart_from base names L.
Proof. intros V H n I. split; apply H, under_file; auto using valid_schema. Qed.

Lemma tsim_extend file a base A s L : tsim a base A s L -> forall L1 L2, wf_archive file a ->
  (forall k, under base k -> away k L1) -> (forall k, under base k -> away k L2) -> tsim a base A s (L1 ++ L ++ L2).
Proof.
  induction 1 as [a base A s L id E S N B U IH]. intros L1 L2 Wf A1 A2. apply TSim with (id := id); auto.
  - intros sl. assert (V : forall n, In n (slot_names a sl) -> valid_name n).
    { intros n I. eapply part_valid; [exact Wf|]. eapply slot_part; exact I. }
    eapply slot_log_extend; eauto; apply under_apart; auto.
  - intros k x Hk Hp k' Uk. destruct (sub_valid _ _ _ Wf (nth_error_In _ _ Hk)) as [V _].
    repeat apply away_app; [apply A1|eapply N; eauto|apply A2]; eapply under_sub; eauto.
  - intros k x A' s' Hk Hp Hs. destruct (sub_valid _ _ _ Wf (nth_error_In _ _ Hk)) as [V Wx].
    eapply IH; eauto; intros k' Uk; [apply A1|apply A2]; eapply under_sub; eauto.
Qed.

(** The files of a slot. *)
Definition slot_key (a : adesc) (base : string) (sl : slot) (k : key) : Prop :=
  exists n, In n (slot_names a sl) /\ (k = file_key base n \/ k = file_key base (schema_name n)).

Lemma slot_key_under file a base sl k : wf_archive file a -> slot_key a base sl k -> under base k.
Proof.
  intros Wf (n & I & H). assert (V := part_valid _ _ _ Wf (slot_part _ _ _ I)).
  destruct H as [->| ->]; apply under_file; auto using valid_schema.
Qed.
Lemma slot_key_other file a base sl sl' n : wf_archive file a -> sl <> sl' -> In n (slot_names a sl') ->
  ~ slot_key a base sl (file_key base n) /\ ~ slot_key a base sl (file_key base (schema_name n)).
Proof.
  intros Wf D I. assert (In_ := slot_part _ _ _ I).
  assert (C : forall x y, file_key base x = file_key base y -> cell_at (FileStorage 0 base) x = cell_at (FileStorage 0 base) y).
  { intros x y H. exact (f_equal CFile H). }
  split; intros (m & Im & H); assert (Imm := slot_part _ _ _ Im);
    assert (D' := slots_disjoint a sl sl' m n ltac:(apply wf_eq in Wf; tauto) D Im I);
    destruct (unrelated_cells (FileStorage 0 base) m n) as [X Y]; eauto using part_valid, part_unrelated;
    unfold cells_of in *; destruct H as [H|H]; apply C in H; tauto.
Qed.
Lemma slot_key_sub file a base sl x k : wf_archive file a -> In x (ad_subs a) -> under (path_join base (fst (fst x))) k ->
  ~ slot_key a base sl k.
Proof.
  intros Wf I U (n & In_ & H). destruct (sub_valid _ _ _ Wf I) as [V _]. assert (Vn := part_valid _ _ _ Wf (slot_part _ _ _ In_)).
  destruct H as [H|H].
  - exact (under_sub_res 0 base _ _ _ V Vn U H).
  - exact (under_sub_res 0 base _ _ _ V (valid_schema _ Vn) U H).
Qed.

Lemma app_l_nil {A} (L : list A) L' : L ++ L' = [] ++ L ++ L'.
Proof. reflexivity. Qed.

(** A step at one slot. *)
Lemma local_log file a base A s A' s' sl0 L L' id : wf_archive file a -> tsim a base A s L ->
  bs_st s = FileStorage id base -> bs_st s' = bs_st s -> bs_subs s' = bs_subs s -> pl_subs A' = pl_subs A ->
  (forall sl L, sl <> sl0 -> slot_log id a base A s sl L -> slot_log id a base A' s' sl L) ->
  within (slot_key a base sl0) L' -> slot_log id a base A' s' sl0 (L ++ L') ->
  tsim a base A' s' (L ++ L') /\ within (under base) L'.
Proof.
  intros Wf H Ei E1 E2 E3 Same Wi S0. split.
  2:{ eapply within_mono; [|exact Wi]. intros k. eapply slot_key_under; eauto. }
  destruct H as [a base A s L id' E S N B U]. rewrite Ei in E. injection E as <-.
  apply TSim with (id := id).
  - congruence.
  - intros sl. destruct (slot_eq_dec sl sl0) as [->|D]; [exact S0|]. apply Same; auto. rewrite app_l_nil.
    eapply slot_log_extend; eauto.
    + intros n _. split; constructor.
    + intros n I. destruct (slot_key_other _ a base sl0 sl n Wf (not_eq_sym D) I). split; apply Wi; auto.
  - rewrite E3. intros k x Hk Hp k' Uk. apply away_app; [eapply N; eauto|]. apply Wi. eapply slot_key_sub; eauto. eapply nth_error_In; eauto.
  - rewrite E3, E2. exact B.
  - rewrite E3, E2. intros k x A1 s1 Hk Hp Hs. destruct (sub_valid _ _ _ Wf (nth_error_In _ _ Hk)) as [V Wx].
    rewrite app_l_nil. eapply tsim_extend; eauto.
    + intros k' _. constructor.
    + intros k' Uk. apply Wi. eapply slot_key_sub; eauto. eapply nth_error_In; eauto.
Qed.

(** A step in a sub-archive. *)
Lemma sub_log file a base A s L L' k x A1 s1 : wf_archive file a -> tsim a base A s L ->
  nth_error (ad_subs a) k = Some x -> within (under (path_join base (fst (fst x)))) L' ->
  tsim (snd (fst x)) (path_join base (fst (fst x))) A1 s1 (L ++ L') ->
  tsim a base (pl_sub k (Some A1) A) (put_sub k (Some s1) s) (L ++ L') /\ within (under base) L'.
Proof.
  intros Wf H Hk Wi T1. assert (I := nth_error_In _ _ Hk). destruct (sub_valid _ _ _ Wf I) as [V Wx]. split.
  2:{ eapply within_mono; [|exact Wi]. intros k'. apply under_sub. exact V. }
  destruct H as [a base A s L id E S N B U]. 
  assert (Dn : forall k2 x2, k2 <> k -> nth_error (ad_subs a) k2 = Some x2 -> valid_name (fst (fst x2)) /\ wf_archive file (snd (fst x2)) /\
     forall k', under (path_join base (fst (fst x2))) k' -> away k' L').
  { intros k2 x2 D Hk2. destruct (sub_valid _ _ _ Wf (nth_error_In _ _ Hk2)) as [V2 W2]. split; auto. split; auto.
    intros k' U2. apply Wi. intros U1. assert (En := under_sub_disjoint _ _ _ _ V V2 U1 U2).
    apply wf_eq in Wf. destruct Wf as (_ & _ & _ & _ & _ & _ & _ & ND & _).
    apply D. eapply NoDup_nth_error; [exact ND| |].
    - rewrite map_length. apply nth_error_Some. congruence.
    - rewrite !nth_error_map, Hk, Hk2. simpl. congruence. }
  apply TSim with (id := id).
  - exact E.
  - intros sl. assert (X : slot_log id a base A s sl (L ++ L')).
    { rewrite app_l_nil. eapply slot_log_extend; eauto.
      - intros n _. split; constructor.
      - intros n In_. assert (Vn := part_valid _ _ _ Wf (slot_part _ _ _ In_)). split; apply Wi; intros R.
        + exact (under_sub_res 0 base _ n _ V Vn R eq_refl).
        + exact (under_sub_res 0 base _ (schema_name n) _ V (valid_schema _ Vn) R eq_refl). }
    destruct sl; exact X.
  - intros k2 x2 Hk2 Hp k' Uk. cbn [pl_sub pl_subs] in Hp. destruct (Nat.eq_dec k2 k) as [->|D]; [rewrite nupd_same in Hp; discriminate|].
    rewrite nupd_other in Hp by exact D. destruct (Dn _ _ D Hk2) as (_ & _ & F). apply away_app; [eapply N; eauto|auto].
  - intros k2 x2 A' Hk2. cbn [pl_sub pl_subs put_sub bs_subs]. destruct (Nat.eq_dec k2 k) as [->|D]; [rewrite !nupd_same; discriminate|].
    rewrite !nupd_other by exact D. eapply B; eauto.
  - intros k2 x2 A' s' Hk2. cbn [pl_sub pl_subs put_sub bs_subs]. destruct (Nat.eq_dec k2 k) as [->|D].
    + rewrite !nupd_same. intros [= <-] [= <-]. replace x2 with x by congruence. exact T1.
    + rewrite !nupd_other by exact D. intros Hp Hs. destruct (Dn _ _ D Hk2) as (V2 & W2 & F). rewrite app_l_nil.
      eapply tsim_extend; eauto. intros k' _. constructor.
Qed.

(** * The writers *)
Section Env.
Variables (b : build) (e : endian) (lim : Z).

Lemma traced_ev_step s sets v w k p id base (Q : list effect -> outcome (bool * ext_vec) -> world -> Prop) :
  ev_on v k p id base ->
  (forall L d fl v' w', appends k p L d -> only k L -> ev_on v' k (p + len d) id base -> Q L (Ret (fl, v')) w') ->
  (forall L w', Q L Panic w') -> (forall L w', Q L UB w') -> (forall L w', Q L Crash w') ->
  traced (ev_step b e lim s (EGrow sets) v) w Q.
Proof.
  intros On q q1 q2 q3. unfold ev_step. apply traced_bind.
  apply (traced_ev_grow b lim s v w k p id base); auto. intros L d x v1 w1 A O On1. apply traced_bind.
  apply (traced_ev_set b e s sets x v1 w1 k (p + len d) id base); auto. intros v2 w2 On2. apply traced_ret. rewrite !app_nil_r.
  apply (q _ d); auto.
Qed.

Lemma traced_mv_step size bits ts items ki kd id base v w pi pd (Q : list effect -> outcome (bool * multi_vec) -> world -> Prop) :
  ki <> kd -> mv_on v ki kd pi pd id base ->
  (forall L fl v' w', mv_more ki kd pi pd id base L v' -> Q L (Ret (fl, v')) w') ->
  (forall L w', Q L Panic w') -> (forall L w', Q L UB w') -> (forall L w', Q L Crash w') ->
  traced (mv_step b e lim size bits ts (MGrow items) v) w Q.
Proof.
  intros N On q q1 q2 q3. unfold mv_step. apply traced_bind.
  assert (Rest : forall L1 v1 w1, mv_more ki kd pi pd id base L1 v1 ->
    traced (let! v := mv_add b e ts items v1 in mret (true, v)) w1 (fun L2 o w2 => Q (L1 ++ L2) o w2)).
  { intros L1 v1 w1 M1. apply traced_bind. unfold mv_add. apply traced_bind, traced_lift.
    destruct (items_add _ _ _ _ _) as [data| | |]; auto. apply traced_ret. apply traced_ret. simpl app. rewrite app_nil_r.
    apply q. destruct M1 as (di & dd & A1 & A2 & A3 & On1). exists di, dd. auto. }
  unfold mv_grow. apply traced_bind.
  assert (Idx : forall L1 v1 w1, mv_more ki kd pi pd id base L1 v1 ->
    traced (mv_add_to_index b e lim size bits v1) w1 (fun L2 o w2 =>
     match o with
     | Ret (Ok _, v2) => mv_more ki kd pi pd id base (L1 ++ L2) v2
     | Ret (Er _, _) => False
     | _ => True end)).
  { intros L1 v1 w1 M1. assert (M1' := M1). destruct M1' as (di & dd & A1 & A2 & A3 & On1).
    apply (traced_mv_index b e lim ki kd id base N size bits v1 w1 (pi + len di) (pd + len dd)); auto.
    intros L2 v2 w2 (di' & dd' & B1 & B2 & B3 & On3). exists (di ++ di'), (dd ++ dd'). split; [apply appends_app; auto|]. split; [apply appends_app; auto|].
    split; [apply both_app; auto|]. rewrite !len_app, !Z.add_assoc. auto. }
  apply traced_if; intros _.
  - apply (traced_mv_flush b ki kd id base N v w pi pd); auto. intros L1 v1 w1 M1. eapply traced_conseq; [apply (Idx L1 v1 w1 M1)|].
    intros L2 o w2 H. destruct o as [[[u|k] v2]| | |]; try contradiction; auto.
  - apply traced_ret. eapply traced_conseq; [apply (Idx [] v w); apply mv_more_nil; auto|].
    intros L2 o w2 H. destruct o as [[[u|k] v2]| | |]; try contradiction; auto.
Qed.

(** Closing. *)
Lemma ev_closed_log kd ks schema L L' d : kd <> ks -> growing kd L (zeros 8 ++ d) -> growing ks L schema ->
  closing kd (8 + len d) L' -> sealed_log kd ks schema (L ++ L').
Proof.
  intros N G Gs Cl. split; [apply growing_away; auto; eapply closing_away; eauto|].
  destruct (closing_ended kd L L' _ G) as (d' & n & X); [rewrite len_app; exact Cl|].
  exists (d ++ d'), n. rewrite <- !app_assoc in *. exact X.
Qed.

Lemma mv_closed_log ki kd ks kis schema ischema L di0 dd0 B di dd C1 C2 nd :
  kd <> ks -> ki <> kis -> kd <> ki -> kd <> kis -> ks <> ki ->
  growing kd L (zeros 8 ++ dd0) -> growing ks L schema -> growing ki L (zeros 8 ++ di0) -> growing kis L ischema ->
  appends ki (8 + len di0) B di -> appends kd (8 + len dd0) B dd -> both ki kd B ->
  closing ki (8 + len di0 + len di) C1 -> quiet_log C2 ->
  let L' := B ++ C1 ++ Put kd (8 + len dd0 + len dd) (zeros 8) :: Quiet :: Put kd 0 (le_bytes 8 nd) :: C2 in
  sealed_log kd ks schema (L ++ L') /\ sealed_log ki kis ischema (L ++ L') /\ index_last kd ki (L ++ L') /\
  forall k, kd <> k -> ki <> k -> away k L'.
Proof.
  intros N1 N2 N3 N4 N5 Gd Gs Gi Gis D1 D2 D3 Cl HC2 L'.
  assert (N3' : ki <> kd) by (exact (fun X => N3 (eq_sym X))).
  assert (N5' : ki <> ks) by (exact (fun X => N5 (eq_sym X))).
  assert (W4 : forall k, kd <> k -> away k (Put kd (8 + len dd0 + len dd) (zeros 8) :: Quiet :: Put kd 0 (le_bytes 8 nd) :: C2)).
  { intros k H. constructor; [exact H|]. constructor; [exact I|]. constructor; [exact H|]. apply quiet_away. auto. }
  assert (W : forall k, kd <> k -> ki <> k -> away k L').
  { intros k H1 H2. apply away_app; [eapply both_away; eauto|]. apply away_app; [eapply closing_away; eauto|auto]. }
  assert (Gd' : growing kd (L ++ B) (zeros 8 ++ dd0 ++ dd)).
  { rewrite app_assoc. apply growing_more; auto. rewrite len_app. exact D2. }
  assert (Gi' : growing ki (L ++ B) (zeros 8 ++ di0 ++ di)).
  { rewrite app_assoc. apply growing_more; auto. rewrite len_app. exact D1. }
  assert (EL : L ++ L' = ((L ++ B) ++ C1) ++ Put kd (8 + len dd0 + len dd) (zeros 8) :: Quiet :: Put kd 0 (le_bytes 8 nd) :: C2).
  { unfold L'. rewrite <- !app_assoc. reflexivity. }
  assert (Hd : ended kd (L ++ L') (zeros 8 ++ (dd0 ++ dd) ++ zeros 8) (le_bytes 8 nd)).
  { rewrite EL.
    assert (G : growing kd (((L ++ B) ++ C1) ++ [Put kd (8 + len dd0 + len dd) (zeros 8); Quiet]) (zeros 8 ++ (dd0 ++ dd) ++ zeros 8)).
    { rewrite (app_assoc (zeros 8)). apply growing_more.
      - apply growing_away; [exact Gd'|eapply closing_away; eauto].
      - rewrite !len_app. replace (len (zeros 8) + (len dd0 + len dd)) with (8 + len dd0 + len dd) by (rewrite len_zeros; lia).
        rewrite <- (app_nil_r (zeros 8)) at 2. apply App_put. apply App_other; [exact I|constructor]. }
    assert (X := growing_end kd _ _ (le_bytes 8 nd) C2 G (quiet_away kd C2 HC2)). rewrite <- (app_assoc _ [_; _]) in X. exact X. }
  split; [|split; [|split]].
  - split; [apply growing_away; auto|]. exists (dd0 ++ dd), nd. exact Hd.
  - split; [apply growing_away; auto|].
    destruct (closing_ended ki _ C1 _ Gi') as (d' & n & X).
    { rewrite !len_app, len_zeros by lia. replace (8 + (len di0 + len di)) with (8 + len di0 + len di) by lia. exact Cl. }
    exists ((di0 ++ di) ++ d'), n. rewrite EL. apply ended_away; [|apply W4; auto]. rewrite <- !app_assoc in *. exact X.
  - assert (AC := closing_away ki kd _ C1 Cl N3').
    destruct C1 as [|E C1]; [exfalso; destruct Cl as (B0 & ? & ? & ? & X & _); destruct B0; discriminate|]. inversion AC; subst.
    exists (L ++ B), E, (C1 ++ Put kd (8 + len dd0 + len dd) (zeros 8) :: Quiet :: Put kd 0 (le_bytes 8 nd) :: C2), (dd0 ++ dd), nd, (di0 ++ di).
    split; [rewrite EL, <- !app_assoc; auto|]. split; auto.
  - exact W.
Qed.

Lemma born_log ks kd schema L0 L : born ks kd schema L -> away ks L0 -> away kd L0 ->
  growing ks (L0 ++ L) schema /\ growing kd (L0 ++ L) (zeros 8).
Proof. intros (A & B & _) H1 H2. split; apply away_growing; auto. Qed.

(** * Builders *)
Ltac other_slots := intros sl L0 D H; destruct sl as [|j|j|j|j]; try exact H;
  cbn [slot_log pl_struct pl_vec pl_mul pl_raw put_vec put_mul pl_structs pl_vecs pl_muls pl_raws bs_vecs bs_muls] in *;
  rewrite ?nupd_other by congruence; try exact H.

Lemma write_log a id base n schema d w sl A s A' L : wf_archive true a -> tsim a base A s L ->
  bs_st s = FileStorage id base -> slot_names a sl = [n] -> no_log base n L -> pl_subs A' = pl_subs A ->
  (forall sl' L, sl' <> sl -> slot_log id a base A s sl' L -> slot_log id a base A' s sl' L) ->
  (forall L, file_log base n schema d L -> slot_log id a base A' s sl L) ->
  traced (let! x := write b e (FileStorage id base) n schema d in mret (is_ok x, s)) w (fun L' o w' =>
    forall s', o = Ret (true, s') -> tsim a base A' s' (L ++ L') /\ within (under base) L').
Proof.
  intros Wf T Ei En (N1 & N2) E3 Same K. apply traced_bind.
  eapply traced_conseq; [apply traced_write, key_schema|]. intros L1 o w1 H. cbv beta zeta in H.
  destruct o as [[[]|x]| | |]; try discriminate.
  2:{ apply traced_ret. intros s' X. discriminate X. }
  destruct (H eq_refl) as (G1 & G2 & G3). apply traced_ret. intros s' X. injection X as <-. rewrite app_nil_r.
  eapply (local_log true a base A s A' s sl L L1 id); eauto.
  - intros k Nk. apply G3; intros <-; apply Nk; exists n; rewrite En; split; simpl; auto.
  - apply K. split; apply away_growing; auto.
Qed.

Lemma traced_builder_new a id base w : wf_archive true a ->
  traced (builder_new b e a (FileStorage id base)) w (fun L o w' => forall st', o = Ret (Ok st') ->
    st' = FileStorage id base /\ tsim a base no_plan (new_bstate st') L /\ within (under base) L).
Proof.
  intros Wf. unfold builder_new, mtry. apply traced_bind. unfold create_archive. apply traced_bind. simpl exists_. apply traced_path_exists.
  set (n := signature_name (ad_name a)). destruct (on_disk _ w).
  { apply traced_ret. apply traced_ret. discriminate. }
  unfold mtry. apply traced_bind. eapply traced_conseq; [apply traced_write, key_schema|]. intros L1 o w1 H. cbv beta zeta in H.
  destruct o as [[[]|x]| | |]; try discriminate.
  2:{ apply traced_ret. apply traced_ret. discriminate. }
  destruct (H eq_refl) as (G1 & G2 & G3). apply traced_ret. apply traced_ret. intros st' X. injection X as <-. rewrite !app_nil_r.
  split; auto. fold n in G1, G2, G3.
  assert (Wi : within (slot_key a base SSig) ([Quiet] ++ L1)).
  { intros k Nk. constructor; [exact I|]. apply G3; intros <-; apply Nk; exists n; split; simpl; auto. }
  split; [|eapply within_mono; [|exact Wi]; intros k; eapply slot_key_under; eauto].
  assert (No : forall sl m, sl <> SSig -> In m (slot_names a sl) -> no_log base m ([Quiet] ++ L1)).
  { intros sl m D I. destruct (slot_key_other true a base SSig sl m Wf (not_eq_sym D) I). split; apply Wi; auto. }
  apply TSim with (id := id); try reflexivity; try discriminate.
  - intros sl. destruct sl as [|k|k|k|k]; cbn [slot_log no_plan new_bstate pl_structs pl_vecs pl_muls pl_raws].
    + split; apply away_growing; auto; repeat constructor.
    + destruct (nth_error (ad_structs a) k) eqn:E; simpl at_slot; auto. apply (No (SStruct k)); [discriminate|]. simpl. rewrite E. left; auto.
    + destruct (nth_error (ad_vectors a) k) eqn:E; simpl at_slot; auto. apply (No (SVec k)); [discriminate|]. simpl. rewrite E. left; auto.
    + destruct (nth_error (ad_multis a) k) as [r|] eqn:E; simpl at_slot; auto.
      assert (En : mr_index r = index_name (mr_name r)).
      { apply wf_eq in Wf. destruct Wf as (_ & _ & _ & _ & _ & Hm & _). rewrite Forall_forall in Hm.
        apply (Hm r (nth_error_In _ _ E)). }
      split; apply (No (SMul k)); try discriminate; cbn [slot_names]; rewrite E; cbn [opt_list]; rewrite En; simpl; auto.
    + destruct (nth_error (ad_raws a) k) eqn:E; simpl at_slot; auto. apply (No (SRaw k)); [discriminate|]. simpl. rewrite E. left; auto.
  - intros k x Hk _ k' U. apply Wi. eapply slot_key_sub; eauto. eapply nth_error_In; eauto.
Qed.

Lemma multi_keys base n : identifier n ->
  let K := file_key base in
  K n <> K (schema_name n) /\ K (index_name n) <> K (schema_name (index_name n)) /\ K n <> K (index_name n) /\
  K n <> K (schema_name (index_name n)) /\ K (schema_name n) <> K (index_name n) /\ K (schema_name n) <> K (schema_name (index_name n)).
Proof.
  intros Hi K. set (st := FileStorage 0 base).
  destruct (index_cells st n (identifier_valid _ Hi)) as ((X1 & X2) & X3 & X4). unfold cells_of in *.
  split; [apply key_schema|]. split; [apply key_schema|].
  assert (C : forall n m, cell_at st n <> cell_at st m -> K n <> K m) by (intros x y HH HE; apply HH; exact (f_equal CFile HE)).
  repeat split; apply C; intuition congruence.
Qed.

Lemma traced_bstep o : forall a base A s L A' w, wf_archive true a -> tsim a base A s L -> may true a A o A' ->
  traced (bstep b e lim a o s) w (fun L' o' w' => forall s', o' = Ret (true, s') ->
    tsim a base A' s' (L ++ L') /\ within (under base) L').
Proof.
  induction o as [k m|k v|k|k sets|k|k|k items|k|k d|k|k o IH]; intros a base A s L A' w Wf T Hm;
    inversion Hm; subst; cbn [bstep];
    assert (T' := T); destruct T' as [a base A s L id Est S Nu Bu U]; rewrite ?Est;
    assert (Ws := Wf); apply wf_eq in Ws; destruct Ws as (_ & _ & _ & Ws & Wv & Wm & Wr & _ & Wu);
    rewrite Forall_forall in Ws, Wv, Wm, Wr, Wu;
    match goal with H : nth_error _ _ = Some _ |- _ => assert (I := nth_error_In _ _ H); rename H into Hk end;
    match goal with
    | H : pl_structs _ _ = _ |- _ => rename H into Hp
    | H : pl_vecs _ _ = _ |- _ => rename H into Hp
    | H : pl_muls _ _ = _ |- _ => rename H into Hp
    | H : pl_raws _ _ = _ |- _ => rename H into Hp
    | H : pl_subs _ _ = _ |- _ => rename H into Hp
    end;
    rewrite ?Hk; cbn [with_some].
  - (* struct *)
    specialize (S (SStruct k)). cbn [slot_log] in S. rewrite Hk in S. cbn [at_slot] in S. rewrite Hp in S.
    unfold set_struct. replace (_ <=? _) with true by (symmetry; apply Z.leb_le; assumption).
    eapply (write_log a id base _ _ _ w (SStruct k)); eauto.
    + cbn [slot_names]. rewrite Hk. reflexivity.
    + other_slots.
    + intros L' X. cbn [slot_log]. rewrite Hk. cbn [at_slot pl_struct pl_structs]. rewrite nupd_same. exact X.
  - (* vector *)
    specialize (S (SVec k)). cbn [slot_log] in S. rewrite Hk in S. cbn [at_slot] in S. rewrite Hp in S.
    eapply (write_log a id base _ _ _ w (SVec k)); eauto.
    + cbn [slot_names]. rewrite Hk. reflexivity.
    + other_slots.
    + intros L' X. cbn [slot_log]. rewrite Hk. cbn [at_slot pl_vec pl_vecs]. rewrite nupd_same. exact X.
  - (* start vector *)
    specialize (S (SVec k)). cbn [slot_log] in S. rewrite Hk in S. cbn [at_slot] in S. rewrite Hp in S. destruct S as (N1 & N2).
    unfold start_vector, create_external_vector, mtry. apply traced_bind. apply traced_bind. apply traced_create_handle; [apply key_schema| |].
    2:{ intros L1 x w1. repeat apply traced_ret. intros s' X. discriminate X. }
    intros L1 h w1 Bo Hs Hst. repeat apply traced_ret. intros s' X. injection X as <-. rewrite !app_nil_r.
    destruct (born_log _ _ _ L _ Bo N2 N1) as (G1 & G2).
    apply (local_log true a base A s (pl_vec k (VOpen []) A) (put_vec k (Some (ev_new h)) s) (SVec k) L L1 id); auto.
    + other_slots.
    + intros k' Nk. eapply born_away; [exact Bo| |]; intros <-; apply Nk; exists (tr_name r); cbn [slot_names]; rewrite Hk; split; simpl; auto.
    + cbn [slot_log]. rewrite Hk. cbn [at_slot pl_vec pl_vecs put_vec bs_vecs]. rewrite !nupd_same. cbn [vec_log].
      exists (ev_new h), []. split; auto. split; [split; simpl; auto|]. rewrite app_nil_r. auto.
  - (* grow *)
    specialize (S (SVec k)). cbn [slot_log] in S. rewrite Hk in S. cbn [at_slot] in S. rewrite Hp in S. cbn [vec_log] in S.
    destruct S as (v & d & Ev & On & G1 & G2). rewrite Ev. cbn [with_some]. apply traced_bind.
    eapply traced_ev_step; eauto; try (intros; discriminate).
    intros L1 d1 fl v1 w1 A1 O1 On1. apply traced_ret. intros s' X. injection X as -> <-. rewrite app_nil_r. cbn [snd].
    apply (local_log true a base A s (pl_vec k (VOpen (l ++ [sets])) A) (put_vec k (Some v1) s) (SVec k) L L1 id); auto.
    + other_slots.
    + intros k' Nk. eapply only_away; [exact O1|]. intros <-; apply Nk; exists (tr_name r); cbn [slot_names]; rewrite Hk; split; simpl; auto.
    + cbn [slot_log]. rewrite Hk. cbn [at_slot pl_vec pl_vecs put_vec bs_vecs]. rewrite !nupd_same. cbn [vec_log].
      exists v1, (d ++ d1). split; auto. split; [rewrite len_app, Z.add_assoc; exact On1|]. split.
      * rewrite app_assoc. apply growing_more; auto. rewrite len_app. exact A1.
      * apply growing_away; auto. eapply only_away; [exact O1|]. apply key_schema.
  - (* close *)
    specialize (S (SVec k)). cbn [slot_log] in S. rewrite Hk in S. cbn [at_slot] in S. rewrite Hp in S. cbn [vec_log] in S.
    destruct S as (v & d & Ev & On & G1 & G2). rewrite Ev. cbn [with_some]. apply traced_bind.
    eapply traced_ev_close; eauto; try (intros; discriminate).
    intros L1 o1 w1 Cl. destruct o1 as [x| | |]; try discriminate. apply traced_ret. intros s' X.
    assert (s' = put_vec k None s) by congruence. subst s'. rewrite app_nil_r.
    apply (local_log true a base A s (pl_vec k (VClosed l) A) (put_vec k None s) (SVec k) L L1 id); auto.
    + other_slots.
    + intros k' Nk. eapply closing_away; [exact Cl|]. intros <-; apply Nk; exists (tr_name r); cbn [slot_names]; rewrite Hk; split; simpl; auto.
    + cbn [slot_log]. rewrite Hk. cbn [at_slot pl_vec pl_vecs put_vec bs_vecs]. rewrite !nupd_same. cbn [vec_log].
      eapply ev_closed_log; eauto. apply key_schema.
  - (* start multi *)
    specialize (S (SMul k)). cbn [slot_log] in S. rewrite Hk in S. cbn [at_slot] in S. rewrite Hp in S. destruct S as ((N1 & N2) & N3 & N4).
    destruct (Wm r I) as (Wi & En & _). destruct (multi_keys base _ Wi) as (M1 & M2 & M3 & M4 & M5 & M6).
    unfold start_multi, create_multi_vector, create_external_vector, mtry. apply traced_bind. apply traced_bind. apply traced_bind.
    apply traced_create_handle; [apply key_schema| |].
    2:{ intros L1 x w1. repeat apply traced_ret. intros s' X. discriminate X. }
    intros L1 h w1 Bo Hs Hst. apply traced_ret. apply traced_bind. apply traced_create_handle; [apply key_schema| |].
    2:{ intros L2 x w2. apply traced_bind. apply traced_drop. intros o. destruct o; try discriminate. repeat apply traced_ret. intros s' X. discriminate X. }
    intros L2 h2 w2 Bo2 Hs2 Hst2. repeat apply traced_ret. intros s' X. injection X as <-. rewrite !app_nil_r.
    assert (Wi1 : within (slot_key a base (SMul k)) L1).
    { intros k' Nk. eapply born_away; [exact Bo| |]; intros <-; apply Nk; exists (index_name (mr_name r)); cbn [slot_names]; rewrite Hk; cbn [opt_list]; rewrite En; split; simpl; auto. }
    assert (Wi2 : within (slot_key a base (SMul k)) L2).
    { intros k' Nk. eapply born_away; [exact Bo2| |]; intros <-; apply Nk; exists (mr_name r); cbn [slot_names]; rewrite Hk; cbn [opt_list]; rewrite En; split; simpl; auto. }
    assert (G1 := born_log _ _ _ L _ Bo N4 N3). destruct G1 as (G1 & G2).
    assert (G3 : growing (file_key base (schema_name (mr_name r))) (L ++ L1 ++ L2) (mr_schema r) /\ growing (file_key base (mr_name r)) (L ++ L1 ++ L2) (zeros 8)).
    { rewrite app_assoc. apply born_log; auto; apply away_app; auto; eapply born_away; eauto; auto. }
    destruct G3 as (G3 & G4).
    set (mv := mv_new (ev_new h) h2).
    apply (local_log true a base A s (pl_mul k (MOpen []) A) (put_mul k (Some mv) s) (SMul k) L (L1 ++ L2) id); auto.
    + other_slots.
    + apply within_app; auto.
    + cbn [slot_log]. rewrite Hk. cbn [at_slot pl_mul pl_muls put_mul bs_muls]. rewrite !nupd_same. cbn [mul_log].
      exists mv, [], []. split; auto. split; [split; [split; simpl; auto|split; simpl; auto]|]. rewrite !app_nil_r.
      split; [auto|]. split; [auto|]. rewrite app_assoc. split; (apply growing_away; [assumption|eapply born_away; [exact Bo2| |]; auto]).
  - (* multi grow *)
    specialize (S (SMul k)). cbn [slot_log] in S. rewrite Hk in S. cbn [at_slot] in S. rewrite Hp in S. cbn [mul_log] in S.
    destruct S as (v & di & dd & Ev & On & G1 & G2 & G3 & G4). rewrite Ev. cbn [with_some]. apply traced_bind.
    destruct (Wm r I) as (Wi & En & _). destruct (multi_keys base _ Wi) as (M1 & M2 & M3 & M4 & M5 & M6).
    eapply traced_mv_step; [exact (not_eq_sym M3)|exact On| |intros; discriminate..].
    intros L1 fl v1 w1 (di1 & dd1 & A1 & A2 & Bo & On1). apply traced_ret. intros s' X. injection X as -> <-. rewrite app_nil_r. cbn [snd].
    assert (Wi1 : within (slot_key a base (SMul k)) L1).
    { intros k' Nk. eapply both_away; [exact Bo| |]; intros <-; apply Nk;
        [exists (index_name (mr_name r))|exists (mr_name r)]; cbn [slot_names]; rewrite Hk; cbn [opt_list]; rewrite ?En; split; simpl; auto. }
    apply (local_log true a base A s (pl_mul k (MOpen (l ++ [items])) A) (put_mul k (Some v1) s) (SMul k) L L1 id); auto.
    + other_slots.
    + cbn [slot_log]. rewrite Hk. cbn [at_slot pl_mul pl_muls put_mul bs_muls]. rewrite !nupd_same. cbn [mul_log].
      exists v1, (di ++ di1), (dd ++ dd1). split; auto. split; [rewrite !len_app, !Z.add_assoc; exact On1|].
      split; [rewrite app_assoc; apply growing_more; auto; rewrite len_app; exact A2|].
      split; [apply growing_away; auto; eapply both_away; [exact Bo| |]; auto|].
      split; [rewrite app_assoc; apply growing_more; auto; rewrite len_app; exact A1|].
      apply growing_away; auto. eapply both_away; [exact Bo| |]; auto.
  - (* multi close *)
    specialize (S (SMul k)). cbn [slot_log] in S. rewrite Hk in S. cbn [at_slot] in S. rewrite Hp in S. cbn [mul_log] in S.
    destruct S as (v & di & dd & Ev & On & G1 & G2 & G3 & G4). rewrite Ev. cbn [with_some]. apply traced_bind.
    destruct (Wm r I) as (Wi & En & _). destruct (multi_keys base _ Wi) as (M1 & M2 & M3 & M4 & M5 & M6).
    eapply traced_mv_close; [exact (not_eq_sym M3)|exact On| |intros; try discriminate..].
    2:{ apply traced_ret. intros s' X. discriminate X. }
    intros B di1 dd1 C1 C2 nd w1 rr A1 A2 Bo Cl HC. apply traced_ret. intros s' X. injection X as <-. rewrite app_nil_r.
    destruct (mv_closed_log _ _ _ _ _ _ L di dd B di1 dd1 C1 C2 nd M1 M2 M3 M4 M5 G1 G2 G3 G4 A1 A2 Bo Cl HC) as (S1 & S2 & S3 & S4).
    apply (local_log true a base A s (pl_mul k (MClosed l) A) (put_mul k None s) (SMul k) L _ id); auto.
    + other_slots.
    + intros k' Nk. apply S4; intros <-; apply Nk;
        [exists (mr_name r)|exists (index_name (mr_name r))]; cbn [slot_names]; rewrite Hk; cbn [opt_list]; rewrite ?En; split; simpl; auto.
    + cbn [slot_log]. rewrite Hk. cbn [at_slot pl_mul pl_muls put_mul bs_muls]. rewrite !nupd_same. cbn [mul_log]. auto.
  - (* raw *)
    specialize (S (SRaw k)). cbn [slot_log] in S. rewrite Hk in S. cbn [at_slot] in S. rewrite Hp in S.
    eapply (write_log a id base _ _ _ w (SRaw k)); eauto.
    + cbn [slot_names]. rewrite Hk. reflexivity.
    + other_slots.
    + intros L' X. cbn [slot_log]. rewrite Hk. cbn [at_slot pl_raw pl_raws]. rewrite nupd_same. exact X.
  - (* new sub-archive *)
    destruct (sub_valid _ _ _ Wf I) as [V Wx].
    unfold sub_builder. apply traced_bind. apply traced_bind.
    eapply traced_silent with (o := Ret (FileStorage (w_next w) (path_join base (fst (fst s0)))))
      (w0 := set_next (Datatypes.S (w_next w)) (set_maps (nupd (w_next w) (fun _ => None) (w_maps w)) w));
      [reflexivity|intros l; reflexivity|].
    eapply traced_conseq; [apply (traced_builder_new _ _ _ _ Wx)|]. intros L1 o1 w1 H.
    destruct o1 as [[st'|x]| | |]; try discriminate.
    2:{ apply traced_ret. intros s' X. discriminate X. }
    destruct (H st' eq_refl) as (-> & T1 & Wi). apply traced_ret. intros s' X. injection X as <-. rewrite app_nil_r. simpl app.
    eapply (sub_log true a base A s L L1 k s0); eauto. rewrite <- (app_nil_r L1) at 1.
    eapply tsim_extend; eauto. intros k' _. constructor.
  - (* in a sub-archive *)
    destruct (sub_valid _ _ _ Wf I) as [V Wx].
    destruct (bs_subs s k) as [s1|] eqn:Es; [|destruct (Bu _ _ _ Hk Hp Es)].
    cbn [with_some]. apply traced_bind.
    match goal with H : may _ (snd (fst s0)) _ _ _ |- _ => rename H into Hm' end.
    eapply traced_conseq; [apply (IH _ _ _ _ L _ w Wx (U _ _ _ _ Hk Hp Es) Hm')|]. intros L1 o1 w1 H.
    destruct o1 as [[fl s2]| | |]; try discriminate. apply traced_ret. intros s' X. injection X as -> <-. rewrite app_nil_r. cbn [snd].
    destruct (H s2 eq_refl) as (T1 & Wi). eapply (sub_log true a base A s L L1 k s0); eauto.
Qed.

Lemma traced_run {X} (m : M X) w (Q : list effect -> outcome X -> world -> Prop) : traced m w Q ->
  traced m w (fun L o w0 => Q L o w0 /\ m (set_faults [] w) = (o, set_faults [] w0)).
Proof. intros (L & o & w0 & H & q). exists L, o, w0. split; auto. split; auto. eapply logs_clean; eauto. Qed.

Lemma traced_brun ops : forall a base A s L A' w s2 w2, wf_archive true a -> tsim a base A s L -> history true a A ops A' ->
  brun b e lim a ops s (set_faults [] w) = (Ret (repeat true (length ops), s2), w2) ->
  traced (brun b e lim a ops s) w (fun L' o w' => tsim a base A' s2 (L ++ L') /\ within (under base) L').
Proof.
  induction ops as [|o ops IH]; intros a base A s L A' w s2 w2 Wf T H R; inversion H; subst; cbn [brun] in *.
  - apply traced_ret. injection R as <- _. rewrite app_nil_r. split; [exact T|apply within_nil].
  - match goal with H : may _ _ _ _ _ |- _ => rename H into Hm end.
    match goal with H : history _ _ _ ops _ |- _ => rename H into Hh end.
    apply traced_bind. eapply traced_conseq; [apply traced_run, (traced_bstep o a base A s L _ w Wf T Hm)|]. intros L1 o1 w1 (H1 & R1).
    unfold mbind in R. rewrite R1 in R. destruct o1 as [[fl s1]| | |]; try discriminate R. cbn [fst snd] in *.
    destruct (brun b e lim a ops s1 (set_faults [] w1)) as [o3 w3] eqn:R2. destruct o3 as [[fl3 s3]| | |]; try discriminate R.
    cbn [fst snd] in R. unfold mret in R. cbn [length repeat] in R. injection R as -> -> -> ->.
    destruct (H1 s1 eq_refl) as (T1 & Wi1). apply traced_bind.
    eapply traced_conseq; [apply traced_run, (IH a base _ s1 (L ++ L1) _ w1 s2 w2 Wf T1 Hh R2)|]. intros L2 o2 w4 ((T2 & Wi2) & R4).
    rewrite R2 in R4. injection R4 as <- _. apply traced_ret. rewrite app_nil_r, app_assoc. split; auto. apply within_app; auto.
Qed.

(** The whole session. *)
Lemma traced_build a id base ops A w w1 s2 w2 : let st := FileStorage id base in
  wf_archive true a -> history true a no_plan ops A ->
  builder_new b e a st (set_faults [] w) = (Ret (Ok st), w1) ->
  brun b e lim a ops (new_bstate st) w1 = (Ret (repeat true (length ops), s2), w2) ->
  traced (build_session b e lim a st ops) w (fun L o w0 =>
    o = Ret (Ok (repeat true (length ops), s2)) /\ set_faults [] w0 = w2 /\ tsim a base A s2 L).
Proof.
  intros st Wf H R1 R2. unfold build_session, mtry. apply traced_bind.
  eapply traced_conseq; [apply traced_run, (traced_builder_new a id base w Wf)|]. intros L1 o1 w3 (H1 & E1).
  fold st in E1. rewrite R1 in E1. injection E1 as <- ->. destruct (H1 st eq_refl) as (_ & T1 & _). apply traced_bind.
  eapply traced_conseq; [apply traced_run, (traced_brun ops a base no_plan (new_bstate st) L1 A w3 s2 w2 Wf T1 H R2)|].
  intros L2 o2 w4 ((T2 & _) & E2). rewrite R2 in E2. injection E2 as <- ->. apply traced_ret. rewrite app_nil_r. auto.
Qed.
End Env.
