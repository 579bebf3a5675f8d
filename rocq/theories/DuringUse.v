(** What a process sees that opens an archive while it is built. *)
From Verif Require Import Base BaseFacts Codec CodecSpec Structs StructsSpec StructsFacts Views ViewsSpec.
From Verif Require Import Storage PathFacts StorageSpec StorageFacts StorageMore StorageUse Writers WritersSpec EncodeFacts MultiViews MultiSpec MultiVecFacts MultiVecUse.
From Verif Require Import Archives ArchiveSpec ArchiveFacts BuilderSpec BuilderFacts BuilderUse BuilderProgress.
From Verif Require Import MomentSpec MomentFacts MomentLogs MomentUse DuringSpec BuilderLogs.
Local Open Scope list_scope.
Local Open Scope Z_scope.

(** * Fixpoints as quantifiers *)
Lemma plan_shown_eq B V N a base A x : plan_shown B V N a base A x <->
  (forall k r, nth_error (ad_structs a) k = Some r -> B base (tr_name r) (pl_structs A k) (nth k (ar_structs x) None)) /\
  (forall k r, nth_error (ad_vectors a) k = Some r -> V base r (pl_vecs A k) (nth k (ar_vectors x) None)) /\
  (forall k r, nth_error (ad_multis a) k = Some r -> N base r (pl_muls A k) (nth k (ar_multis x) (None, None))) /\
  (forall k r, nth_error (ad_raws a) k = Some r -> B base (rr_name r) (pl_raws A k) (nth k (ar_raws x) None)) /\
  (forall k s, nth_error (ad_subs a) k = Some s -> forall x', nth k (ar_subs x) None = Some x' ->
     exists A', pl_subs A k = Some A' /\ plan_shown B V N (snd (fst s)) (path_join base (fst (fst s))) A' x').
Proof.
  destruct a as [name schema ss vs ms rs subs]. cbn [plan_shown ad_structs ad_vectors ad_multis ad_raws ad_subs].
  match goal with |- _ /\ _ /\ _ /\ _ /\ ?g O subs <-> _ => set (go := g) end.
  assert (E : forall l j, go j l <-> forall k s, nth_error l k = Some s -> forall x', nth (j + k) (ar_subs x) None = Some x' ->
     exists A', pl_subs A (j + k) = Some A' /\ plan_shown B V N (snd (fst s)) (path_join base (fst (fst s))) A' x').
  { induction l as [|[[n a'] o] l IH]; intros j; cbn.
    - split; auto. intros _ [|k] s H; discriminate H.
    - rewrite IH. split.
      + intros [H H'] [|k] s Hk; cbn [nth_error] in Hk.
        * injection Hk as <-. rewrite Nat.add_0_r. intros x' Hx. rewrite Hx in H. exact H.
        * rewrite <- Nat.add_succ_comm. exact (H' k s Hk).
      + intros H. split.
        * specialize (H O _ eq_refl). rewrite Nat.add_0_r in H. destruct (nth j (ar_subs x) None); auto.
        * intros k s Hk. specialize (H (S k) s Hk). rewrite <- Nat.add_succ_comm in H. exact H. }
  rewrite E. reflexivity.
Qed.
Lemma plan_shown_mono (B B' : string -> string -> option (list Z) -> option slice -> Prop)
    (V V' : string -> typed_res -> vslot -> option slice -> Prop)
    (N N' : string -> multi_res -> mslot -> option slice * option slice -> Prop) a :
  (forall base n o y, B base n o y -> B' base n o y) -> (forall base r o y, V base r o y -> V' base r o y) ->
  (forall base r o y, N base r o y -> N' base r o y) ->
  forall base A x, plan_shown B V N a base A x -> plan_shown B' V' N' a base A x.
Proof.
  intros HB HV HN. induction a as [name schema ss vs ms rs subs IH] using adesc_deep_ind. intros base A x. rewrite !plan_shown_eq.
  intros (H1 & H2 & H3 & H4 & H5). split; [|split; [|split; [|split]]]; auto.
  intros k s Hk x' Hx. destruct (H5 k s Hk x' Hx) as (A' & E & H). exists A'. split; auto.
  rewrite Forall_forall in IH. eapply (IH s); eauto. eapply nth_error_In; eauto.
Qed.
Lemma complete_eq a x : complete a x <->
  (forall k r, nth_error (ad_structs a) k = Some r -> tr_opt r = false -> nth k (ar_structs x) None <> None) /\
  (forall k r, nth_error (ad_vectors a) k = Some r -> tr_opt r = false -> nth k (ar_vectors x) None <> None) /\
  (forall k r, nth_error (ad_multis a) k = Some r -> mr_opt r = false ->
     fst (nth k (ar_multis x) (None, None)) <> None /\ snd (nth k (ar_multis x) (None, None)) <> None) /\
  (forall k r, nth_error (ad_raws a) k = Some r -> rr_opt r = false -> nth k (ar_raws x) None <> None) /\
  (forall k s, nth_error (ad_subs a) k = Some s ->
     match nth k (ar_subs x) None with Some x' => complete (snd (fst s)) x' | None => snd s = true end).
Proof.
  destruct a as [name schema ss vs ms rs subs]. cbn [complete ad_structs ad_vectors ad_multis ad_raws ad_subs].
  match goal with |- _ /\ _ /\ _ /\ _ /\ ?g O subs <-> _ => set (go := g) end.
  assert (E : forall l j, go j l <-> forall k s, nth_error l k = Some s ->
     match nth (j + k) (ar_subs x) None with Some x' => complete (snd (fst s)) x' | None => snd s = true end).
  { induction l as [|[[n a'] o] l IH]; intros j; cbn.
    - split; auto. intros _ [|k] s H; discriminate H.
    - rewrite IH. split.
      + intros [H H'] [|k] s Hk; cbn [nth_error] in Hk.
        * injection Hk as <-. rewrite Nat.add_0_r. exact H.
        * rewrite <- Nat.add_succ_comm. exact (H' k s Hk).
      + intros H. split.
        * specialize (H O _ eq_refl). rewrite Nat.add_0_r in H. exact H.
        * intros k s Hk. specialize (H (S k) s Hk). rewrite <- Nat.add_succ_comm in H. exact H. }
  rewrite E. reflexivity.
Qed.
Lemma sufficient_eq a A : sufficient a A <->
  (forall k r, nth_error (ad_structs a) k = Some r -> tr_opt r = false -> pl_structs A k <> None) /\
  (forall k r, nth_error (ad_vectors a) k = Some r -> tr_opt r = false -> pl_vecs A k <> VUnset) /\
  (forall k r, nth_error (ad_multis a) k = Some r -> mr_opt r = false -> pl_muls A k <> MUnset) /\
  (forall k r, nth_error (ad_raws a) k = Some r -> rr_opt r = false -> pl_raws A k <> None) /\
  (forall k s, nth_error (ad_subs a) k = Some s -> snd s = false ->
     match pl_subs A k with Some A' => sufficient (snd (fst s)) A' | None => False end).
Proof.
  destruct a as [name schema ss vs ms rs subs]. cbn [sufficient ad_structs ad_vectors ad_multis ad_raws ad_subs].
  match goal with |- _ /\ _ /\ _ /\ _ /\ ?g O subs <-> _ => set (go := g) end.
  assert (E : forall l j, go j l <-> forall k s, nth_error l k = Some s -> snd s = false ->
     match pl_subs A (j + k) with Some A' => sufficient (snd (fst s)) A' | None => False end).
  { induction l as [|[[n a'] o] l IH]; intros j; cbn.
    - split; auto. intros _ [|k] s H; discriminate H.
    - rewrite IH. split.
      + intros [H H'] [|k] s Hk; cbn [nth_error] in Hk.
        * injection Hk as <-. rewrite Nat.add_0_r. exact H.
        * rewrite <- Nat.add_succ_comm. exact (H' k s Hk).
      + intros H. split.
        * specialize (H O _ eq_refl). rewrite Nat.add_0_r in H. exact H.
        * intros k s Hk. specialize (H (S k) s Hk). rewrite <- Nat.add_succ_comm in H. exact H. }
  rewrite E. reflexivity.
Qed.

Lemma open_during_eq b e W a base : open_during b e W a base =
  dtry (dread b e W base (signature_name (ad_name a)) (ad_schema a)) (fun _ =>
  dtry (deach (dtyped b e W base) (ad_structs a)) (fun ss =>
  dtry (deach (dtyped b e W base) (ad_vectors a)) (fun vs =>
  dtry (deach (dmulti b e W base) (ad_multis a)) (fun ms =>
  dtry (deach (draw b e W base) (ad_raws a)) (fun rs =>
  dtry (deach (fun s => dpart (snd s) (open_during b e W (snd (fst s)) (path_join base (fst (fst s))))) (ad_subs a)) (fun us =>
  dret (Ok (mkOpened ss vs ms rs us)))))))).
Proof.
  destruct a as [name schema ss vs ms rs subs]. cbn [open_during ad_name ad_schema ad_structs ad_vectors ad_multis ad_raws ad_subs].
  match goal with |- context [dtry (?g subs) _] => set (go := g) end.
  assert (E : forall l, go l = deach (fun s => dpart (snd s) (open_during b e W (snd (fst s)) (path_join base (fst (fst s))))) l).
  { induction l as [|[[n a'] o] l IH]; [reflexivity|]. cbn. fold go. rewrite IH. reflexivity. }
  rewrite E. reflexivity.
Qed.

(** * Sequences of steps *)
Definition gives {A} (m : during A) (i : nat) (P : nat -> A -> Prop) : Prop :=
  exists r n, m i = Ret (r, n) /\ (i <= n)%nat /\ forall x, r = Ok x -> P n x.

Lemma gives_ret {A} (x : A) i (P : nat -> A -> Prop) : P i x -> gives (dret (Ok x)) i P.
Proof. intros H. exists (Ok x), i. split; [reflexivity|]. split; auto. intros y [= <-]. exact H. Qed.
Lemma gives_try {A B} (m : during A) (f : A -> during B) i (P : nat -> A -> Prop) (Q : nat -> B -> Prop) :
  gives m i P -> (forall n x, (i <= n)%nat -> P n x -> gives (f x) n Q) -> gives (dtry m f) i Q.
Proof.
  intros (r & n & E & Ln & H) K. unfold dtry, gives. rewrite E, obind_ret. cbn [fst snd]. destruct r as [x|x].
  - destruct (K n x Ln (H x eq_refl)) as (r2 & n2 & E2 & L2 & H2). exists r2, n2. split; auto. split; [lia|auto].
  - exists (Er x), n. split; auto. split; auto. discriminate.
Qed.
Lemma gives_part {A} opt (m : during A) i (P : nat -> A -> Prop) (Q : nat -> option A -> Prop) :
  gives m i P -> (forall n x, P n x -> Q n (Some x)) -> (forall n, opt = true -> Q n None) -> gives (dpart opt m) i Q.
Proof.
  intros (r & n & E & Ln & H) K1 K2. unfold dpart, gives. rewrite E, obind_ret. cbn [fst snd]. destruct r as [x|x].
  - exists (Ok (Some x)), n. split; auto. split; auto. intros y [= <-]. auto.
  - eexists _, n. split; [reflexivity|]. split; auto. destruct opt; [|discriminate]. intros y [= <-]. auto.
Qed.
Lemma gives_conseq {A} (m : during A) i (P Q : nat -> A -> Prop) : gives m i P -> (forall n x, P n x -> Q n x) -> gives m i Q.
Proof. intros (r & n & E & Ln & H) K. exists r, n. auto. Qed.
Lemma gives_each {A B} (f : A -> during B) (d : B) l : forall (P : nat -> A -> nat -> B -> Prop) i,
  (forall k r n n' y, (n <= n')%nat -> P k r n y -> P k r n' y) ->
  (forall k r j, nth_error l k = Some r -> gives (f r) j (P k r)) ->
  gives (deach f l) i (fun n ys => forall k r, nth_error l k = Some r -> P k r n (nth k ys d)).
Proof.
  induction l as [|a l IH]; intros P i Mo H; cbn [deach].
  - apply gives_ret. intros [|k] r X; discriminate X.
  - eapply gives_try; [apply (H O a i eq_refl)|]. cbn beta. intros n y Ln Py. eapply gives_try.
    + apply (IH (fun k => P (S k))); [intros; eapply Mo; eauto|]. intros k r j Hk. apply (H (S k) r j Hk).
    + cbn beta. intros n2 ys L2 Hy. apply gives_ret. intros [|k] r Hk; cbn [nth_error nth] in *.
      * injection Hk as <-. eapply Mo; eauto.
      * auto.
Qed.

(** * Later *)
Lemma stays_later W base n i j sl : (i <= j)%nat -> stays W base n i sl -> stays W base n j sl.
Proof. intros L (A & B). split; auto. intros k Hk. apply B. lia. Qed.
Lemma seen_bytes_later W base n i j o y : (i <= j)%nat -> seen_bytes W base n i o y -> seen_bytes W base n j o y.
Proof. intros L. destruct y; simpl; auto. intros (A & B). split; auto. eapply stays_later; eauto. Qed.
Lemma seen_vec_later W torn base i j r o y : (i <= j)%nat -> seen_vec W torn base i r o y -> seen_vec W torn base j r o y.
Proof. intros L. destruct y; simpl; auto. intros (A & B). split; auto. eapply stays_later; eauto. Qed.
Lemma seen_mul_later W torn base i j r o y : (i <= j)%nat -> seen_mul W torn base i r o y -> seen_mul W torn base j r o y.
Proof.
  intros L [H|(l & I & D & E & F & X & Y & Z)]; [left; auto|]. right. exists l, I, D. split; auto. split; auto. split; [|split; auto].
  - destruct (fst y); auto. destruct X. split; auto. eapply stays_later; eauto.
  - destruct (snd y); auto. destruct Y. split; auto. eapply stays_later; eauto.
Qed.
(** * Reads *)
Lemma read_during_ext b e W W' base n expected : (forall i, W i = W' i) -> read_during b e W base n expected = read_during b e W' base n expected.
Proof. intros H. unfold read_during. rewrite !H. reflexivity. Qed.

Section Run.
Context {X : Type}.
Variables (m : M X) (w : world) (L : list effect) (o : outcome X) (w0 : world).
Hypothesis Lg : logs m w L o w0.
Variables (tau : nat -> moment).
Hypothesis Ht : forall i, not_after (tau i) (tau (S i)).
Variables (b : build) (e : endian).
Let W i := world_at m w (tau i).
Let torn := exists i, bytes_done (tau i) <> 0%nat.

Lemma shift_ok i n : not_after (tau (i + n)%nat) (tau (i + S n)%nat).
Proof. replace (i + S n)%nat with (S (i + n)) by lia. apply Ht. Qed.

Lemma away_never k x : away k L -> w_files (world_at m w x) k = w_files w k.
Proof. intros H. rewrite (world_at_logs m w L o w0 x Lg). apply upto_away. exact H. Qed.

Lemma dread_none base n expected i (P : nat -> slice -> Prop) : no_log base n L -> absent (FileStorage 0 base) n w ->
  gives (dread b e W base n expected) i P.
Proof.
  intros (N1 & _) (A1 & _). unfold dread, gives. unfold read_during.
  set (k := res_key (FileStorage 0 base) n) in *.
  assert (PE : forall k w, fst (path_exists k (restart w)) = Ret (on_disk k w)) by reflexivity.
  rewrite PE, obind_ret. destruct (on_disk k _).
  2:{ eexists _, _. split; [reflexivity|]. split; [lia|discriminate]. }
  cbn [negb]. rewrite mmap_fresh. change (key_of (res_path (FileStorage 0 base) n)) with k.
  unfold W at 1. rewrite (away_never k _ N1), A1. eexists _, _. split; [reflexivity|]. split; [lia|discriminate].
Qed.

Lemma dread_file base n schema d expected i : file_log base n schema d L -> absent (FileStorage 0 base) n w -> data_ok d ->
  gives (dread b e W base n expected) i (fun j sl => d = sl_bytes sl /\ stays W base n j sl).
Proof.
  intros (G1 & G2) (A1 & A2) Dok. unfold dread, gives.
  destruct (during_timelines b e m w (fun n => tau (i + n)%nat) base n expected schema d (resource_bytes d) []) as (r & E & K); auto.
  - left. auto.
  - apply shift_ok.
  - exact (timeline_logs _ w L _ w0 _ _ _ Lg (growing_timeline _ _ _ _ G1 A1)).
  - exact (timeline_logs _ w L _ w0 _ _ _ Lg (growing_timeline _ _ _ _ G2 A2)).
  - unfold W. rewrite E, obind_ret. exists r, (i + 6)%nat. split; auto. split; [lia|]. intros sl Hr.
    destruct (K sl Hr) as ((_ & K2 & _ & _ & _ & K3) & K4). specialize (K4 eq_refl). split; auto. split; auto.
    intros j Hj. assert (Y := K3 (j - i)%nat ltac:(lia)). replace (i + (j - i))%nat with j in Y by lia. exact Y.
Qed.

Lemma dread_sealed base n schema D expected i : sealed_log (file_key base n) (file_key base (schema_name n)) schema L ->
  absent (FileStorage 0 base) n w -> data_ok D -> w_files w0 (file_key base n) = Some (resource_bytes D) ->
  exists r, read_during b e (fun n => W (i + n)%nat) base n expected = Ret r /\
    forall sl, r = Ok sl -> stays W base n (i + 6)%nat sl /\ beginning torn (sl_bytes sl) D /\ (sl_len sl = len D -> sl_bytes sl = D).
Proof.
  intros Sl Ab Dok Fd.
  destruct (sealed_during m 0 base n schema D w L o w0 Lg Ab Dok Sl Fd (fun n => tau (i + n)%nat) (shift_ok i) b e expected) as (r & E & K).
  exists r. split; [exact E|]. intros sl Hr. destruct (K sl Hr) as (_ & K1 & K2 & K3 & K4 & K5). split; [|split; [split|]].
  - split; auto. intros j Hj. assert (Y := K5 (j - i)%nat ltac:(lia)). replace (i + (j - i))%nat with j in Y by lia. exact Y.
  - exists (skipn (Z.to_nat (sl_len sl)) D). transitivity (firstn (Z.to_nat (sl_len sl)) D ++ skipn (Z.to_nat (sl_len sl)) D); [symmetry; apply firstn_skipn|]. f_equal. auto.
  - intros NT. destruct K4 as [Z0|F]; auto.
    + intros Y. apply NT. exists (i + 4)%nat. exact Y.
    + left. rewrite K3, Z0. reflexivity.
  - intros Y. rewrite K3, Y. unfold len. rewrite Nat2Z.id. apply firstn_all.
Qed.

(** * Parts *)
Lemma part_bytes base n schema oo opt i v : byte_log base n schema oo L -> absent (FileStorage 0 base) n w ->
  byte_slot (FileStorage v base) n schema oo (set_faults [] w0) ->
  gives (dpart opt (dread b e W base n schema)) i (fun j y => seen_bytes W base n j oo y /\ (opt = false -> y <> None)).
Proof.
  intros Lo Ab Sl. apply gives_part with (P := fun j sl => oo = Some (sl_bytes sl) /\ stays W base n j sl).
  - destruct oo as [d|]; simpl in *; [|apply dread_none; auto].
    eapply gives_conseq; [eapply (dread_file base n schema d); eauto; apply Sl|]. intros j sl (-> & K). auto.
  - intros j sl (-> & K). split; [split; auto|discriminate].
  - intros j ->. split; [exact I|discriminate].
Qed.

Lemma part_vec base id r oo v opt i st : vec_log id base r oo v L -> absent (FileStorage 0 base) (tr_name r) w ->
  vec_slot (FileStorage st base) r oo v (set_faults [] w0) -> (forall l, oo <> VOpen l) ->
  gives (dpart opt (dread b e W base (tr_name r) (tr_schema r))) i (fun j y => seen_vec W torn base j r oo y /\ (opt = false -> y <> None)).
Proof.
  intros Lo Ab Sl No. apply gives_part with (P := fun j sl => seen_vec W torn base j r oo (Some sl)).
  - destruct oo as [|d|l|l]; simpl in *.
    + apply dread_none; auto.
    + eapply gives_conseq; [eapply (dread_file base _ _ d); eauto; apply Sl|]. intros j sl (Hd & K). split; auto.
    + destruct (No l eq_refl).
    + destruct Sl as (D & (St & Dok) & Ar & Re).
      destruct (dread_sealed base (tr_name r) (tr_schema r) D (tr_schema r) i Lo Ab Dok (proj1 St)) as (x & E & K).
      unfold dread, gives. rewrite E, obind_ret. exists x, (i + 6)%nat. split; auto. split; [lia|]. intros sl Hx.
      destruct (K sl Hx) as (K1 & K2 & _). split; auto. exists D. auto.
  - intros j sl K. split; [auto|discriminate].
  - intros j ->. split; [exact I|discriminate].
Qed.

Lemma final_parts r l bs Di : Forall2 (bucket_of (mr_types r)) bs (buckets (mr_types r) l) ->
  wf_struct (index_struct (mr_size r) (mr_bits r)) -> wf_vdesc (mr_types r) ->
  records (index_struct (mr_size r) (mr_bits r)) Di = map (fun x => [x]) (bounds 0 bs ++ [len (concat bs)]) ->
  final_multi r l Di (concat bs).
Proof.
  intros Fb Wi Wt Re iv d Oi Od Ei Ed. eapply (parts_show (mr_size r) (mr_bits r) (mr_types r) bs); eauto. rewrite Ei. exact Re.
Qed.

Lemma part_mul base id r oo v i st : mul_log id base r oo v L -> mr_index r = index_name (mr_name r) ->
  absent (FileStorage 0 base) (mr_name r) w -> absent (FileStorage 0 base) (index_name (mr_name r)) w ->
  wf_struct (index_struct (mr_size r) (mr_bits r)) -> wf_vdesc (mr_types r) ->
  mul_slot (FileStorage st base) r oo v (set_faults [] w0) -> (forall l, oo <> MOpen l) ->
  gives (dmulti b e W base r) i (fun j y => seen_mul W torn base j r oo y /\ (mr_opt r = false -> fst y <> None /\ snd y <> None)).
Proof.
  intros Lo En Ab Abi Wi Wt Sl No. unfold dmulti. rewrite En.
  destruct oo as [|l|l]; simpl in Lo, Sl.
  - destruct Lo as (N1 & N2).
    eapply gives_try with (P := fun _ y => y = None /\ mr_opt r = true).
    { eapply gives_part with (P := fun _ _ => False); [apply dread_none; auto|contradiction|auto]. }
    cbn beta. intros n y _ (-> & Op).
    eapply gives_try with (P := fun _ y => y = None).
    { eapply gives_part with (P := fun _ _ => False); [apply dread_none; auto|contradiction|auto]. }
    cbn beta. intros n2 y _ ->. apply gives_ret. split; [left; reflexivity|]. congruence.
  - destruct (No l eq_refl).
  - destruct Lo as (S1 & S2 & IL). rewrite En in Sl. destruct Sl as (bs & Di & Fb & [Re _] & (Si & Iok) & (Sd & Dok)).
    assert (Fm := final_parts r l bs Di Fb Wi Wt Re).
    destruct (dread_sealed base (index_name (mr_name r)) (index_schema (mr_schema r)) Di (index_schema (mr_schema r)) i S2 Abi Iok (proj1 Si)) as (ri & Ei & Ki).
    destruct (dread_sealed base (mr_name r) (mr_schema r) (concat bs) (mr_schema r) (i + 6) S1 Ab Dok (proj1 Sd)) as (rd & Ed & Kd).
    assert (Or := fun iv d => index_before_data b e m w L o w0 0 base (mr_name r) (mr_schema r) (concat bs) Di Lg Ab Abi Dok Iok S1 S2 IL
       (proj1 Sd) (proj1 Si) (fun n => tau (i + n)%nat) (shift_ok i) (index_schema (mr_schema r)) (mr_schema r) iv d).
    cbv beta zeta in Or.
    unfold dtry, dpart, dread, dret, gives. rewrite Ei, obind_ret. cbn [fst snd]. rewrite obind_ret.
    assert (E6 : read_during b e (fun n => world_at m w (tau (i + (6 + n))%nat)) base (mr_name r) (mr_schema r) = Ret rd).
    { rewrite <- Ed. apply read_during_ext. intros n. unfold W. do 2 f_equal. lia. }
    assert (Part : forall y, (y = None -> mr_opt r = true) -> (forall x, y = Some x -> ri = Ok x) ->
      exists (r0 : result (option slice * option slice) rs_error) n,
      (r1 <- (r1 <- Ret (rd, (i + 6 + 6)%nat) ;;
        match fst r1 with Ok x => Ret (Ok (Some x), snd r1) | Er x => Ret (if mr_opt r then Ok None else Er x, snd r1) end) ;;
       match fst r1 with Ok x => Ret (Ok (y, x), snd r1) | Er x => Ret (Er x, snd r1) end) = Ret (r0, n) /\ (i <= n)%nat /\
      forall x, r0 = Ok x -> seen_mul W torn base n r (MClosed l) x /\ (mr_opt r = false -> fst x <> None /\ snd x <> None)).
    { intros y Hy1 Hy2.
      assert (Yi : match y with Some x => stays W base (mr_index r) (i + 6 + 6)%nat x /\ beginning torn (sl_bytes x) Di | None => True end).
      { destruct y as [x|]; auto. rewrite En. destruct (Ki x (Hy2 x eq_refl)) as (K1 & K2 & _). split; auto. eapply stays_later; [|exact K1]. lia. }
      destruct rd as [d|x].
      - rewrite !obind_ret. cbn [fst snd]. rewrite ?obind_ret. cbn [fst snd]. eexists _, _. split; [reflexivity|]. split; [lia|].
        intros x [= <-]. split.
        + right. exists l, Di, (concat bs). split; auto. split; auto. cbn [fst snd]. split; [exact Yi|].
          destruct (Kd d eq_refl) as (K1 & K2 & K3). split; [split; auto|]. destruct y as [iv|]; auto.
          rewrite (Hy2 iv eq_refl) in Ei. destruct (Or iv d Ei E6) as [Z0|[F|Z0]]; auto.
        + cbn [fst snd]. intros Op. split; [|discriminate]. intros ->. rewrite Hy1 in Op by auto. discriminate.
      - rewrite !obind_ret. cbn [fst snd]. destruct (mr_opt r) eqn:Op; rewrite ?obind_ret; cbn [fst snd].
        + eexists _, _. split; [reflexivity|]. split; [lia|]. intros z [= <-]. split; [|discriminate].
          right. exists l, Di, (concat bs). split; auto. split; auto. cbn [fst snd]. split; [exact Yi|]. split; auto. destruct y; auto.
        + eexists _, _. split; [reflexivity|]. split; [lia|]. discriminate. }
    destruct ri as [iv|x]; cbn [fst snd]; rewrite obind_ret; cbn [fst snd].
    + rewrite Ed. apply (Part (Some iv)); [discriminate|]. intros x [= <-]. auto.
    + destruct (mr_opt r) eqn:Op; cbn [fst snd].
      * rewrite Ed. apply (Part None); [auto|discriminate].
      * eexists _, _. split; [reflexivity|]. split; [lia|]. discriminate.
Qed.

End Run.

(** * Archives *)
(** Opening returns, if reading each part returns. *)
Section Open.
Variables (b : build) (e : endian) (W : nat -> world) (w w0 : world) (L : list effect).
Variable B : nat -> string -> string -> option (list Z) -> option slice -> Prop.
Variable V : nat -> string -> typed_res -> vslot -> option slice -> Prop.
Variable N : nat -> string -> multi_res -> mslot -> option slice * option slice -> Prop.
Hypothesis B_later : forall i j base n o y, (i <= j)%nat -> B i base n o y -> B j base n o y.
Hypothesis V_later : forall i j base r o y, (i <= j)%nat -> V i base r o y -> V j base r o y.
Hypothesis N_later : forall i j base r o y, (i <= j)%nat -> N i base r o y -> N j base r o y.
Hypothesis none_fails : forall base n expected i (P : nat -> slice -> Prop), no_log base n L -> absent (FileStorage 0 base) n w ->
  gives (dread b e W base n expected) i P.
Hypothesis sig_returns : forall base n schema i, file_log base n schema [] L -> absent (FileStorage 0 base) n w ->
  gives (dread b e W base n schema) i (fun _ _ => True).
Hypothesis bytes_return : forall base n schema oo opt i v, byte_log base n schema oo L -> absent (FileStorage 0 base) n w ->
  byte_slot (FileStorage v base) n schema oo (set_faults [] w0) ->
  gives (dpart opt (dread b e W base n schema)) i (fun j y => B j base n oo y /\ (opt = false -> y <> None)).
Hypothesis vec_returns : forall base id r oo v opt i st, vec_log id base r oo v L -> absent (FileStorage 0 base) (tr_name r) w ->
  vec_slot (FileStorage st base) r oo v (set_faults [] w0) -> (forall l, oo <> VOpen l) ->
  gives (dpart opt (dread b e W base (tr_name r) (tr_schema r))) i (fun j y => V j base r oo y /\ (opt = false -> y <> None)).
Hypothesis mul_returns : forall base id r oo v i st, mul_log id base r oo v L -> mr_index r = index_name (mr_name r) ->
  absent (FileStorage 0 base) (mr_name r) w -> absent (FileStorage 0 base) (index_name (mr_name r)) w ->
  wf_struct (index_struct (mr_size r) (mr_bits r)) -> wf_vdesc (mr_types r) ->
  mul_slot (FileStorage st base) r oo v (set_faults [] w0) -> (forall l, oo <> MOpen l) ->
  gives (dmulti b e W base r) i (fun j y => N j base r oo y /\ (mr_opt r = false -> fst y <> None /\ snd y <> None)).
Let shows i := plan_shown (B i) (V i) (N i).

Lemma gives_open a : forall base A s id, wf_archive true a -> tsim a base A s L -> sim a (FileStorage id base) A s (set_faults [] w0) -> finished A ->
  (forall k, under base k -> w_files w k = None) ->
  forall i, gives (open_during b e W a base) i (fun j x => shows j a base A x /\ complete a x).
Proof.
  induction a as [name schema ss vs ms rs subs IH] using adesc_deep_ind.
  set (a := mkArchive name schema ss vs ms rs subs) in *. intros base A s id Wf T Hs Fin Em i.
  assert (Ab : forall sl n, In n (slot_names a sl) -> absent (FileStorage 0 base) n w).
  { intros sl n I. assert (Vn := part_valid _ _ _ Wf (slot_part _ _ _ I)). split; apply Em; apply under_file; auto using valid_schema. }
  assert (Ws := Wf). apply wf_eq in Ws. destruct Ws as (_ & _ & _ & Ws & Wv & Wm & Wr & _ & Wu).
  rewrite Forall_forall in Ws, Wv, Wm, Wr, Wu, IH.
  apply sim_eq in Hs. destruct Hs as (_ & _ & S & U).
  inversion T as [? ? ? ? ? id' Est SL Nu Bu Ut]; subst. inversion Fin as [? F1 F2 F3]; subst.
  rewrite open_during_eq. eapply gives_try with (P := fun _ _ => True).
  { apply sig_returns; [apply (SL SSig)|apply (Ab SSig); left; auto]. }
  intros n0 _ L0 _. eapply gives_try with (P := fun j ys => forall k r, nth_error ss k = Some r ->
     B j base (tr_name r) (pl_structs A k) (nth k ys None) /\ (tr_opt r = false -> nth k ys None <> None)).
  { apply (gives_each _ None ss (fun k r j y => B j base (tr_name r) (pl_structs A k) y /\ (tr_opt r = false -> y <> None))).
    - intros k r n n' y Ln (X1 & X2). split; auto. eapply B_later; eauto.
    - intros k r j Hk. assert (B1 := SL (SStruct k)). assert (B2 := S (SStruct k)). assert (B3 := Ab (SStruct k) (tr_name r)).
      cbn [slot_log slot_ok slot_names ad_structs] in *. unfold a in B1, B2, B3. cbn [ad_structs] in B1, B2, B3. rewrite Hk in *. cbn [at_slot opt_list] in *.
      eapply bytes_return; eauto. apply B3. left; auto. }
  cbn beta. intros n1 xs L1 Hx1. eapply gives_try with (P := fun j ys => forall k r, nth_error vs k = Some r ->
     V j base r (pl_vecs A k) (nth k ys None) /\ (tr_opt r = false -> nth k ys None <> None)).
  { apply (gives_each _ None vs (fun k r j y => V j base r (pl_vecs A k) y /\ (tr_opt r = false -> y <> None))).
    - intros k r n n' y Ln (X1 & X2). split; auto. eapply V_later; eauto.
    - intros k r j Hk. assert (B1 := SL (SVec k)). assert (B2 := S (SVec k)). assert (B3 := Ab (SVec k) (tr_name r)).
      cbn [slot_log slot_ok slot_names ad_vectors] in *. unfold a in B1, B2, B3. cbn [ad_vectors] in B1, B2, B3. rewrite Hk in *. cbn [at_slot opt_list] in *.
      eapply vec_returns; eauto. apply B3. left; auto. }
  cbn beta. intros n2 ys L2 Hx2. eapply gives_try with (P := fun j ys => forall k r, nth_error ms k = Some r ->
     N j base r (pl_muls A k) (nth k ys (None, None)) /\
     (mr_opt r = false -> fst (nth k ys (None, None)) <> None /\ snd (nth k ys (None, None)) <> None)).
  { apply (gives_each _ (None, None) ms (fun k r j y => N j base r (pl_muls A k) y /\ (mr_opt r = false -> fst y <> None /\ snd y <> None))).
    - intros k r n n' y Ln (X1 & X2). split; auto. eapply N_later; eauto.
    - intros k r j Hk. destruct (Wm r (nth_error_In _ _ Hk)) as (_ & En & _ & Wi & Wt & _).
      assert (B1 := SL (SMul k)). assert (B2 := S (SMul k)). assert (B3 := Ab (SMul k) (mr_name r)). assert (B4 := Ab (SMul k) (index_name (mr_name r))).
      cbn [slot_log slot_ok slot_names ad_multis] in *. unfold a in B1, B2, B3, B4. cbn [ad_multis] in B1, B2, B3, B4. rewrite Hk in *. cbn [at_slot opt_list] in *.
      rewrite En in B3, B4. eapply mul_returns; eauto; [apply B3|apply B4]; simpl; auto. }
  cbn beta. intros n3 zs L3 Hx3. eapply gives_try with (P := fun j ys => forall k r, nth_error rs k = Some r ->
     B j base (rr_name r) (pl_raws A k) (nth k ys None) /\ (rr_opt r = false -> nth k ys None <> None)).
  { apply (gives_each _ None rs (fun k r j y => B j base (rr_name r) (pl_raws A k) y /\ (rr_opt r = false -> y <> None))).
    - intros k r n n' y Ln (X1 & X2). split; auto. eapply B_later; eauto.
    - intros k r j Hk. assert (B1 := SL (SRaw k)). assert (B2 := S (SRaw k)). assert (B3 := Ab (SRaw k) (rr_name r)).
      cbn [slot_log slot_ok slot_names ad_raws] in *. unfold a in B1, B2, B3. cbn [ad_raws] in B1, B2, B3. rewrite Hk in *. cbn [at_slot opt_list] in *.
      eapply bytes_return; eauto. apply B3. left; auto. }
  cbn beta. intros n4 ts L4 Hx4. eapply gives_try with (P := fun j ys => forall k s, nth_error subs k = Some s ->
     (forall x', nth k ys None = Some x' -> exists A', pl_subs A k = Some A' /\ shows j (snd (fst s)) (path_join base (fst (fst s))) A' x') /\
     match nth k ys None with Some x' => complete (snd (fst s)) x' | None => snd s = true end).
  { apply (gives_each _ None subs (fun k s j y =>
      (forall x', y = Some x' -> exists A', pl_subs A k = Some A' /\ shows j (snd (fst s)) (path_join base (fst (fst s))) A' x') /\
      match y with Some x' => complete (snd (fst s)) x' | None => snd s = true end)).
    - intros k r n n' y Ln (X1 & X2). split; auto. intros x' Hx. destruct (X1 x' Hx) as (A' & E & X3). exists A'. split; auto. eapply plan_shown_mono; [..|exact X3]; eauto.
    - intros k x j Hk. assert (I := nth_error_In _ _ Hk). destruct (sub_valid _ _ _ Wf I) as [Vn Wx].
      assert (Em' : forall k', under (path_join base (fst (fst x))) k' -> w_files w k' = None).
      { intros k' Uk. apply Em. eapply under_sub; eauto. }
      eapply gives_part with (P := fun j x' => exists A', pl_subs A k = Some A' /\ shows j (snd (fst x)) (path_join base (fst (fst x))) A' x' /\ complete (snd (fst x)) x').
      + destruct (pl_subs A k) as [A'|] eqn:Ep.
        * assert (U' := U k x Hk). unfold sub_sim in U'. rewrite Ep in U'. destruct U' as (_ & id2 & s' & Es & Hs').
          eapply gives_conseq; [eapply (IH x I); eauto|]. cbn beta. intros n y (Y1 & Y2). eauto.
        * (* the directory of the sub-archive stays empty *)
          rewrite open_during_eq. eapply gives_try with (P := fun _ _ => False); [|contradiction]. apply none_fails.
          -- assert (Vs : valid_name (signature_name (ad_name (snd (fst x))))) by (eapply part_valid; [exact Wx|apply (slot_part _ SSig); left; auto]).
             split; eapply (Nu k x Hk Ep); apply under_file; auto using valid_schema.
          -- assert (Vs : valid_name (signature_name (ad_name (snd (fst x))))) by (eapply part_valid; [exact Wx|apply (slot_part _ SSig); left; auto]).
             split; apply Em'; apply under_file; auto using valid_schema.
      + cbn beta. intros n y (A' & E & Y1 & Y2). split; auto. intros x' [= <-]. eauto.
      + intros n Op. split; [discriminate|exact Op]. }
  cbn beta. intros n5 us L5 Hx5. apply gives_ret. split.
  - apply plan_shown_eq. cbn [ar_structs ar_vectors ar_multis ar_raws ar_subs]. split; [|split; [|split; [|split]]]; intros k r Hk.
    + eapply B_later; [|apply (Hx1 k r Hk)]. lia.
    + eapply V_later; [|apply (Hx2 k r Hk)]. lia.
    + eapply N_later; [|apply (Hx3 k r Hk)]. lia.
    + eapply B_later; [|apply (Hx4 k r Hk)]. lia.
    + apply (Hx5 k r Hk).
  - apply complete_eq. cbn [ar_structs ar_vectors ar_multis ar_raws ar_subs]. split; [|split; [|split; [|split]]]; intros k r Hk.
    + apply (Hx1 k r Hk).
    + apply (Hx2 k r Hk).
    + apply (Hx3 k r Hk).
    + apply (Hx4 k r Hk).
    + apply (Hx5 k r Hk).
Qed.
End Open.

Lemma gives_seen {X} (m : M X) w L o w0 : logs m w L o w0 -> forall tau, (forall i, not_after (tau i) (tau (S i))) ->
  let W i := world_at m w (tau i) in
  forall b e a base A s id, wf_archive true a -> tsim a base A s L -> sim a (FileStorage id base) A s (set_faults [] w0) -> finished A ->
  (forall k, under base k -> w_files w k = None) ->
  forall i, gives (open_during b e W a base) i (fun j x => seen_plan W (exists i, bytes_done (tau i) <> 0%nat) a base j A x /\ complete a x).
Proof.
  intros Lg tau Ht W b e a base A s id Wf T S F Em i. set (torn := exists i, bytes_done (tau i) <> 0%nat).
  refine (gives_open b e W w w0 L (fun i base n => seen_bytes W base n i) (fun i base r => seen_vec W torn base i r)
    (fun i base r => seen_mul W torn base i r) _ _ _ _ _ _ _ _ a base A s id Wf T S F Em i).
  - intros. eapply seen_bytes_later; eauto.
  - intros. eapply seen_vec_later; eauto.
  - intros. eapply seen_mul_later; eauto.
  - intros. eapply dread_none; eauto.
  - intros base' n schema j Lo Ab. eapply gives_conseq; [eapply dread_file; eauto|auto].
    split; [constructor|]. unfold isize_max, len. simpl. lia.
  - intros. eapply part_bytes; eauto.
  - intros. eapply part_vec; eauto.
  - intros. eapply part_mul; eauto.
Qed.

(** An archive that opens will have everything that is required. *)
Lemma shown_sufficient (B : string -> string -> option (list Z) -> option slice -> Prop)
    (V : string -> typed_res -> vslot -> option slice -> Prop)
    (N : string -> multi_res -> mslot -> option slice * option slice -> Prop) a :
  (forall base n y, B base n None y -> y = None) -> (forall base r y, V base r VUnset y -> y = None) ->
  (forall base r y, N base r MUnset y -> y = (None, None)) ->
  forall base A x, plan_shown B V N a base A x -> complete a x -> sufficient a A.
Proof.
  intros HB HV HN. induction a as [name schema ss vs ms rs subs IH] using adesc_deep_ind. intros base A x.
  rewrite plan_shown_eq, complete_eq, sufficient_eq. rewrite Forall_forall in IH.
  intros (H1 & H2 & H3 & H4 & H5) (C1 & C2 & C3 & C4 & C5). split; [|split; [|split; [|split]]]; [intros k r Hk Op E..|].
  - specialize (H1 k r Hk). rewrite E in H1. apply (C1 k r Hk Op). eauto.
  - specialize (H2 k r Hk). rewrite E in H2. apply (C2 k r Hk Op). eauto.
  - specialize (H3 k r Hk). rewrite E in H3. destruct (C3 k r Hk Op) as (C & _). apply C. rewrite (HN _ _ _ H3). reflexivity.
  - specialize (H4 k r Hk). rewrite E in H4. apply (C4 k r Hk Op). eauto.
  - intros k r Hk Op. specialize (C5 k r Hk). specialize (H5 k r Hk). destruct (nth k (ar_subs x) None) as [x'|]; [|congruence].
    destruct (H5 x' eq_refl) as (A' & -> & Sx). eapply (IH r); eauto. eapply nth_error_In; eauto.
Qed.
Lemma seen_sufficient W torn a base i A x : seen_plan W torn a base i A x -> complete a x -> sufficient a A.
Proof.
  apply shown_sufficient.
  - intros base' n [sl|]; simpl; auto. intros (H & _). discriminate.
  - intros base' r [sl|]; simpl; auto. intros (_ & []).
  - intros base' r y [H|(l & I & D & H & _)]; [auto|discriminate].
Qed.

Lemma build_during b e lim a id base ops A w : let st := FileStorage id base in
  wf_archive true a -> dirs_apart a -> maps_ok w -> unused_storage st w -> empty_place st w ->
  history true a no_plan ops A -> finished A ->
  forall tau, (forall i, not_after (tau i) (tau (S i))) ->
  let W i := world_at (build_session b e lim a st ops) w (tau i) in
  forall b' e', exists r n, open_during b' e' W a base O = Ret (r, n) /\
    forall x, r = Ok x -> seen_plan W (exists i, bytes_done (tau i) <> 0%nat) a base n A x /\ complete a x.
Proof.
  intros st Wf Da M Un Em H Fin tau Ht W b' e'.
  assert (E : set_faults [] w = w) by (destruct Em as (E & _); destruct w; simpl in *; subst; reflexivity).
  destruct (build_progress b e lim a st w ops A Wf Da M Un Em H) as (w1 & s2 & w2 & R1 & R2 & _).
  destruct (builder_new_ok _ b e a st w st w1 Wf eq_refl M Un R1) as (_ & S1 & _ & M1).
  destruct (brun_ok _ b e lim a ops st no_plan A (new_bstate st) w1 _ s2 w2 Wf eq_refl M1 S1 H R2) as (S2 & _ & _).
  { apply Forall_forall. intros x Hx. symmetry. eapply repeat_spec; eauto. }
  rewrite <- E in R1. destruct (traced_build b e lim a id base ops A w w1 s2 w2 Wf H R1 R2) as (L & o & w0 & Lg & -> & E2 & T).
  assert (S0 : sim a st A s2 w2) by exact S2. rewrite <- E2 in S0.
  destruct (gives_seen _ w L _ w0 Lg tau Ht b' e' a base A s2 id Wf T) with (i := O) as (r & n & R & _ & K); auto.
  - intros k Uk. destruct Un as (_ & _ & Un). auto.
  - exists r, n. auto.
Qed.


(** * One world: the usual open *)
Definition faithful (w wr : world) : Prop :=
  w_files wr = w_files w /\ w_dirs wr = w_dirs w /\ w_faults wr = [] /\
  forall id p l, w_maps wr id p = Some l -> exists c, w_files w (key_of p) = Some c /\ l = len c /\ len c <> 0.
Definition same_as {A} (w : world) (m : M (result A rs_error)) (d : during A) : Prop :=
  forall wr i, faithful w wr ->
  match d i with
  | Ret (r, _) => exists wr', m wr = (Ret r, wr') /\ faithful w wr'
  | Panic => fst (m wr) = Panic | UB => fst (m wr) = UB | Crash => fst (m wr) = Crash
  end.

Lemma same_ret {A} w (x : result A rs_error) : same_as w (mret x) (dret x).
Proof. intros wr i F. exists wr. auto. Qed.
Lemma same_try {A B} w (m : M (result A rs_error)) d (f : A -> M (result B rs_error)) g :
  same_as w m d -> (forall x, same_as w (f x) (g x)) -> same_as w (mtry (fun k => k) m f) (dtry d g).
Proof.
  intros H K wr i F. specialize (H wr i F). unfold dtry, mtry, mbind. destruct (d i) as [[r n]| | |]; cbn [obind fst snd].
  - destruct H as (wr' & -> & F'). destruct r as [x|x].
    + apply (K x wr' n F').
    + exists wr'. auto.
  - destruct (m wr) as [o w']. simpl in H. subst o. reflexivity.
  - destruct (m wr) as [o w']. simpl in H. subst o. reflexivity.
  - destruct (m wr) as [o w']. simpl in H. subst o. reflexivity.
Qed.
Lemma same_part {A} w opt (m : M (result A rs_error)) d : same_as w m d -> same_as w (check_part opt m) (dpart opt d).
Proof.
  intros H wr i F. specialize (H wr i F). unfold dpart, check_part, mbind. destruct (d i) as [[r n]| | |]; cbn [obind fst snd].
  - destruct H as (wr' & -> & F'). destruct r as [x|x]; exists wr'; auto.
  - destruct (m wr) as [o w']. simpl in H. subst o. reflexivity.
  - destruct (m wr) as [o w']. simpl in H. subst o. reflexivity.
  - destruct (m wr) as [o w']. simpl in H. subst o. reflexivity.
Qed.
Lemma same_each {A B} w (f : A -> M (result B rs_error)) g l : (forall x, In x l -> same_as w (f x) (g x)) -> same_as w (each f l) (deach g l).
Proof.
  induction l as [|a l IH]; intros H; cbn [each deach]; [apply same_ret|].
  apply same_try; [apply H; left; auto|]. intros y. apply same_try; [apply IH; intros; apply H; right; auto|]. intros ys. apply same_ret.
Qed.

Lemma faithful_read_resource w wr id base n : faithful w wr ->
  let k := res_key (FileStorage 0 base) n in
  exists wr', faithful w wr' /\ read_resource (FileStorage id base) n wr =
    ((if on_disk k w then
        match w_files w k with
        | None => Ret (Er (if is_dir k w then KOther else KNotFound))
        | Some c => if len c =? 0 then Ret (Er KInvalidInput) else Ret (Ok (whole c))
        end else Ret (Er KNotFound)), wr').
Proof.
  intros F k. assert (F' := F). destruct F' as (F1 & F2 & F3 & F4). unfold read_resource, mbind at 1, path_exists, mbind, syscall, next_fault. rewrite F3. cbn iota.
  change (res_key (FileStorage id base) n) with k. change (res_path (FileStorage id base) n) with (res_path (FileStorage 0 base) n).
  set (p := res_path (FileStorage 0 base) n).
  assert (E1 : on_disk k wr = on_disk k w) by (unfold on_disk, is_dir; rewrite F1, F2; auto).
  assert (E2 : is_dir k wr = is_dir k w) by (unfold is_dir; rewrite F2; auto).
  unfold mret. rewrite E1.
  destruct (on_disk k w) eqn:D; [|exists wr; split; [exact F|reflexivity]].
  unfold mmap_read. change (key_of p) with k. destruct (w_maps wr id p) as [l|] eqn:Em.
  - destruct (F4 _ _ _ Em) as (c & Ec & -> & N). change (key_of p) with k in Ec. rewrite Ec. replace (len c =? 0) with false by lia.
    exists wr. split; auto. f_equal. rewrite (mapped_ok k (len c) wr c); [|rewrite F1; exact Ec|pose proof (len_nonneg c); lia].
    simpl. unfold len. rewrite Nat2Z.id, firstn_all. reflexivity.
  - unfold syscall, next_fault. rewrite F3. cbn iota. rewrite F1, E2. destruct (w_files w k) as [c|] eqn:Ec; [|exists wr; split; auto].
    destruct (len c =? 0) eqn:Z0; [exists wr; split; auto|]. cbn zeta. eexists. split; [|f_equal].
    + split; [exact F1|]. split; [exact F2|]. split; [exact F3|]. intros id' p' l H. simpl in H. unfold nupd in H.
      destruct (Nat.eqb_spec id' id) as [->|]; [|eauto]. unfold supd in H. destruct (String.eqb_spec p' p) as [->|]; [|eauto].
      injection H as <-. exists c. change (key_of p) with k. split; auto. split; auto. lia.
    + rewrite (mapped_ok k (len c) _ c); [|simpl; rewrite F1; exact Ec|pose proof (len_nonneg c); lia].
      simpl. unfold len. rewrite Nat2Z.id, firstn_all. reflexivity.
Qed.

Lemma same_read b e w id base n expected : same_as w (read b e (FileStorage id base) n expected) (dread b e (fun _ => w) base n expected).
Proof.
  intros wr i F. unfold dread, read_during, read, mtry, mbind.
  destruct (faithful_read_resource w wr id base n F) as (w1 & F1 & ->).
  assert (PE : forall k, fst (path_exists k (restart w)) = Ret (on_disk k w)) by reflexivity.
  set (st := FileStorage 0 base). rewrite PE. rewrite ?obind_ret.
  destruct (on_disk (res_key st n) w) eqn:D1; [|exists w1; split; auto]. cbn [negb].
  rewrite mmap_fresh. change (key_of (res_path st n)) with (res_key st n).
  destruct (w_files w (res_key st n)) as [c|] eqn:E1; [|exists w1; split; auto].
  destruct (len c =? 0) eqn:Z1; [exists w1; split; auto|]. rewrite ?obind_ret. cbn iota.
  destruct (faithful_read_resource w w1 id base (schema_name n) F1) as (w2 & F2 & ->).
  rewrite PE. rewrite ?obind_ret. fold st.
  destruct (on_disk (res_key st (schema_name n)) w) eqn:D2; [|exists w2; split; auto]. cbn [negb].
  rewrite mmap_fresh. change (key_of (res_path st (schema_name n))) with (res_key st (schema_name n)).
  destruct (w_files w (res_key st (schema_name n))) as [s|] eqn:E2; [|exists w2; split; auto].
  destruct (len s =? 0) eqn:Z2; [exists w2; split; auto|]. rewrite ?obind_ret. cbn iota.
  change (sl_len (whole c)) with (len c). change (sl_len (whole s)) with (len s).
  pose proof (len_nonneg c). pose proof (len_nonneg s).
  rewrite (mapped_ok _ _ _ c E1) by lia. rewrite (mapped_ok _ _ _ s E2) by lia. rewrite ?obind_ret.
  unfold len. rewrite !Nat2Z.id, !firstn_all. unfold lift.
  destruct (check_resource b e n expected (whole c) (whole s)); cbn [obind fst]; auto. exists w2. auto.
Qed.

Lemma same_open b e w a : forall id base, same_as w (open_archive b e a (FileStorage id base)) (open_during b e (fun _ => w) a base).
Proof.
  induction a as [name schema ss vs ms rs subs IH] using adesc_deep_ind. intros id base.
  set (a := mkArchive name schema ss vs ms rs subs) in *. rewrite Forall_forall in IH.
  rewrite open_during_eq. intros wr i F. rewrite open_eq. revert wr i F.
  match goal with |- forall wr i, faithful w wr -> match ?d i with _ => _ end => match goal with |- context [fst (?m _) = Panic] => change (same_as w m d) end end.
  apply same_try; [apply same_read|]. intros _.
  apply same_try; [apply same_each; intros r _; apply same_part, same_read|]. intros s1.
  apply same_try; [apply same_each; intros r _; apply same_part, same_read|]. intros s2.
  apply same_try; [apply same_each; intros r _|].
  { apply same_try; [apply same_part, same_read|]. intros x. apply same_try; [apply same_part, same_read|]. intros y. apply same_ret. }
  intros s3. apply same_try; [apply same_each; intros r _; apply same_part, same_read|]. intros s4.
  apply same_try; [apply same_each; intros r I|].
  { unfold open_sub. apply same_part. intros wr i F. unfold mbind, subdir, file_new.
    apply (IH r I). destruct F as (F1 & F2 & F3 & F4). split; [exact F1|]. split; [exact F2|]. split; [exact F3|].
    intros id' p l H. simpl in H. unfold nupd in H. destruct (Nat.eqb_spec id' (w_next wr)); [discriminate|eauto]. }
  intros s5. apply same_ret.
Qed.

Lemma open_during_still b e a base w : omap fst (open_during b e (fun _ => w) a base O) = fresh_open b e a base w.
Proof.
  assert (H := same_open b e w a 0 base (reader_world w) O).
  change (fresh_open b e a base w) with (fst (open_archive b e a (FileStorage 0 base) (reader_world w))).
  assert (F : faithful w (reader_world w)).
  { split; [reflexivity|]. split; [reflexivity|]. split; [reflexivity|]. intros id p l Hm. simpl in Hm. unfold nupd in Hm.
    destruct (Nat.eqb id 0); discriminate. }
  specialize (H F). destruct (open_during b e (fun _ => w) a base O) as [[r n]| | |]; cbn [omap obind fst] in *; auto.
  destruct H as (w' & -> & _). reflexivity.
Qed.
