(** Proofs about two processes that create an archive at the same place. *)
From Verif Require Import Base BaseFacts Codec CodecSpec Structs StructsSpec Views ViewsSpec.
From Verif Require Import Storage PathFacts StorageSpec StorageFacts StorageMore Writers WritersSpec MultiViews MultiSpec.
From Verif Require Import Archives ArchiveSpec ArchiveFacts BuilderSpec BuilderFacts BuilderUse DirFacts BuilderProgress.
From Verif Require Import MomentSpec MomentFacts MomentLogs BuilderLogs DuringSpec DuringUse RaceSpec.
Local Open Scope list_scope.
Local Open Scope Z_scope.

Lemma create_between_still b e id base n schema w :
  create_between b e id base n schema w w = create_archive b e (FileStorage id base) n schema (restart w).
Proof.
  unfold create_between, create_archive. unfold mbind at 1. rewrite exists_eq by reflexivity. cbn [fst].
  destruct (present _ _ _); reflexivity.
Qed.

(** * Logs that create a file *)
Definition creates (k : key) (n : nat) (L : list effect) : Prop :=
  exists L0 L2, L = L0 ++ Create k :: L2 /\ quiet_log L0 /\ length L0 = n.

Lemma quiet_upto L n j f : quiet_log L -> upto L n j f = f.
Proof.
  intros H. revert n. induction H as [|E L HE H IH]; intros n; simpl; [destruct n; auto|].
  subst E. destruct n; simpl; auto.
Qed.
Lemma quiet_acts L f : quiet_log L -> acts L f = f.
Proof. intros H. induction H as [|E L HE H IH]; simpl; auto. subst E. auto. Qed.
Lemma act_keeps E f k : f k <> None -> act E f k <> None.
Proof.
  intros H. destruct E as [|k'|k' p d]; simpl; auto; unfold kupd; destruct (key_eqb _ _); auto; discriminate.
Qed.
Lemma upto_keeps L : forall n j f k, f k <> None -> upto L n j f k <> None.
Proof.
  induction L as [|E L IH]; intros n j f k H; simpl; [destruct n; auto|].
  destruct n; [apply act_keeps; auto|]. apply IH, act_keeps, H.
Qed.
Lemma creates_before k n L m j f : creates k n L -> (m <= n)%nat -> upto L m j f = f.
Proof.
  intros (L0 & L2 & -> & Q & E) H. destruct (Nat.lt_ge_cases m (length L0)) as [X|X].
  - rewrite upto_app_l by auto. apply quiet_upto, Q.
  - rewrite upto_app_r by auto. rewrite quiet_acts by auto. replace (m - length L0)%nat with O by lia. reflexivity.
Qed.
Lemma creates_after k n L m j f : creates k n L -> (n < m)%nat -> upto L m j f k <> None.
Proof.
  intros (L0 & L2 & -> & Q & E) H. rewrite upto_app_r by lia. rewrite quiet_acts by auto.
  destruct (m - length L0)%nat as [|i] eqn:Ei; [lia|]. cbn [upto]. apply upto_keeps. simpl. rewrite kupd_same. discriminate.
Qed.

Lemma traced_create_soon id base name w : let st := FileStorage id base in let k := res_key st name in
  traced (create_output_stream st name) w (fun L o w' => forall s, o = Ret (Ok s) -> s = SFile k 0 /\ exists n, (n <= 2)%nat /\ creates k n L).
Proof.
  intros st k. unfold create_output_stream. simpl. apply traced_bind, traced_path_exists.
  unfold mtry. apply traced_bind.
  assert (X : forall L w1, quiet_log L -> (length L <= 1)%nat -> traced (file_create k) w1
     (fun L2 o2 w2 => forall s, o2 = Ret (Ok s) -> s = SFile k 0 /\ exists n, (n <= 2)%nat /\ creates k n ([Quiet] ++ L ++ L2))).
  { intros L w1 HL Le. unfold file_create. destruct (is_dir k w1) eqn:D1.
    - apply (traced_syscall _ w1 Quiet (Ret (Er KOther)) w1); auto; [|discriminate|intros ? ?; discriminate].
      intros l. change (is_dir k (set_faults l w1)) with (is_dir k w1). rewrite D1. auto.
    - destruct (is_dir (parent k) w1) eqn:D2.
      + eapply (traced_syscall _ w1 (Create k) _ (set_files (kupd k (Some []) (w_files w1)) w1)); auto; [|discriminate|].
        * intros l. change (is_dir k (set_faults l w1)) with (is_dir k w1).
          change (is_dir (parent k) (set_faults l w1)) with (is_dir (parent k) w1).
          rewrite D1, D2. reflexivity.
        * intros s [= <-]. split; auto. exists (length ([Quiet] ++ L)). split; [simpl; lia|]. exists ([Quiet] ++ L), [].
          split; [rewrite <- app_assoc; reflexivity|]. split; auto. apply quiet_app; auto. repeat constructor.
      + eapply (traced_syscall _ w1 Quiet (Ret (Er (if file_on_path (parent k) w1 then KOther else KNotFound))) w1); auto; [|discriminate|intros ? ?; discriminate].
        intros l. change (is_dir k (set_faults l w1)) with (is_dir k w1).
        change (is_dir (parent k) (set_faults l w1)) with (is_dir (parent k) w1).
        rewrite D1, D2. reflexivity. }
  destruct (on_disk (key_of base) w).
  - apply traced_ret. apply (X []); simpl; auto. apply quiet_nil.
  - apply traced_dirs; intros D.
    + apply traced_ret. intros ? ?; discriminate.
    + apply (X [Quiet]); [repeat constructor|simpl; lia].
Qed.

Lemma creates_app k n L1 L2 : creates k n L1 -> creates k n (L1 ++ L2).
Proof. intros (L0 & L3 & -> & Q & E). exists L0, (L3 ++ L2). rewrite <- app_assoc. auto. Qed.
Lemma creates_quiet k n Q L : quiet_log Q -> creates k n L -> creates k (length Q + n) (Q ++ L).
Proof.
  intros H (L0 & L3 & -> & H0 & E). exists (Q ++ L0), L3. rewrite <- app_assoc. split; auto.
  split; [apply quiet_app; auto|]. rewrite app_length. lia.
Qed.

Lemma upto_later L : forall n j m j' f k, (n < m)%nat -> upto L n j f k <> None -> upto L m j' f k <> None.
Proof.
  induction L as [|E L IH]; intros n j m j' f k H X; simpl in *; [destruct n, m; auto|].
  destruct m as [|m]; [lia|]. destruct n as [|n].
  - apply upto_keeps. destruct E as [|k'|k' p d]; simpl in *; auto; [apply (act_keeps (Create k')); auto|].
    unfold kupd in *. destruct (key_eqb _ _); auto. discriminate.
  - eapply IH; [|exact X]. lia.
Qed.

(** * Creating *)
Section Env.
Variables (b : build) (e : endian).

Lemma traced_to_stream_long k d w (Q : list effect -> outcome (result unit io_kind) -> world -> Prop) :
  (forall L w', (2 <= length L)%nat -> Q L (Ret (Ok tt)) w') -> traced (write_to_stream b e d (SFile k 0)) w Q.
Proof.
  intros q. unfold write_to_stream, stry. apply traced_bind, traced_write_size. apply traced_bind.
  apply traced_write_all; intros Hd; apply traced_bind, traced_padding, traced_ret; apply q; simpl; lia.
Qed.

Lemma traced_create_archive id base a schema w : let st := FileStorage id base in let k := res_key st (signature_name a) in
  traced (create_archive b e st a schema) w (fun L o w' => o = Ret (Ok tt) ->
    exists n, (n <= 3)%nat /\ creates k n L /\ (n + 1 < length L)%nat).
Proof.
  intros st k. unfold create_archive. apply traced_bind. simpl exists_. apply traced_path_exists.
  destruct (on_disk _ w); [apply traced_ret; discriminate|].
  unfold mtry. apply traced_bind. unfold write, mtry. apply traced_bind.
  eapply traced_conseq; [apply traced_create_soon|]. intros L1 o1 w1 H1. cbv beta zeta in H1.
  destruct o1 as [[s|x]| | |]; try discriminate.
  2:{ apply traced_ret. apply traced_ret. discriminate. }
  destruct (H1 s eq_refl) as (-> & n & Hn & C). apply traced_bind. apply traced_to_stream_long. intros L2 w2 Le.
  assert (R : forall L, exists m, (m <= 3)%nat /\ creates k m ([Quiet] ++ L1 ++ L2 ++ L) /\ (m + 1 < length ([Quiet] ++ L1 ++ L2 ++ L))%nat).
  { intros L. exists (1 + n)%nat. split; [lia|]. split.
    - apply (creates_quiet k n [Quiet]); [repeat constructor|]. apply creates_app. exact C.
    - destruct C as (L0 & L3 & -> & _ & E). rewrite !app_length. simpl. lia. }
  apply traced_bind. eapply traced_conseq; [apply traced_create_soon|]. intros L3 o3 w3 H3. cbv beta zeta in H3.
  destruct o3 as [[s|x]| | |]; try discriminate.
  2:{ apply traced_ret. apply traced_ret. discriminate. }
  destruct (H3 s eq_refl) as (-> & _). apply traced_schema. intros L4 w4 _ _.
  apply traced_ret. intros _. rewrite <- ?app_assoc. apply (R (L3 ++ L4 ++ [])).
Qed.
End Env.

Lemma session_inside b e lim a st ops w x w1 :
  create_archive b e st (ad_name a) (ad_schema a) (stop_at x w) = (Crash, w1) ->
  world_at (build_session b e lim a st ops) w x = w1.
Proof. intros H. unfold world_at, build_session, builder_new, mtry, mbind. rewrite H. reflexivity. Qed.

Lemma signature_key a id id' base : res_key (FileStorage id base) (signature_name a) = res_key (FileStorage id' base) (signature_name a).
Proof. reflexivity. Qed.

(** When the other process finds the signature. *)
Lemma race_threshold b e lim a id base ops A w : let st := FileStorage id base in
  wf_archive true a -> dirs_apart a -> maps_ok w -> unused_storage st w -> empty_place st w ->
  history true a no_plan ops A ->
  exists n, (1 <= n <= 4)%nat /\ forall x id',
    fst (exists_ (FileStorage id' base) (signature_name (ad_name a)) (restart (world_at (build_session b e lim a st ops) w x))) =
    Ret (n <=? calls_done x)%nat.
Proof.
  intros st Wf Da M Un Em H.
  assert (E : set_faults [] w = w) by (destruct Em as (E & _); destruct w; simpl in *; subst; reflexivity).
  destruct (build_progress b e lim a st w ops A Wf Da M Un Em H) as (w1 & s2 & w2 & R1 & R2 & _).
  assert (Rc : exists w3, create_archive b e st (ad_name a) (ad_schema a) w = (Ret (Ok tt), w3)).
  { unfold builder_new, mtry, mbind in R1. destruct (create_archive _ _ _ _ _ _) as [[[[]|x]| | |] w3]; try discriminate R1. eauto. }
  destruct Rc as (w3 & Rc).
  rewrite <- E in R1. destruct (traced_build b e lim a id base ops A w w1 s2 w2 Wf H R1 R2) as (L & o & w0 & Lg & _).
  destruct (traced_create_archive b e id base (ad_name a) (ad_schema a) w) as (L1 & o1 & w4 & Lc & C).
  assert (Ec := logs_clean _ _ _ _ _ Lc). fold st in Ec. rewrite E, Rc in Ec. injection Ec as <- _.
  destruct (C eq_refl) as (n & Hn & Cr & Le). clear C.
  set (k := res_key (FileStorage id base) (signature_name (ad_name a))) in *.
  assert (Nk : w_files w k = None /\ w_dirs w k = false).
  { destruct Em as (_ & _ & Em). apply Em. unfold k. apply under_res, signature_valid. apply wf_eq in Wf. tauto. }
  assert (Uk : under base k) by (unfold k; apply under_res, signature_valid; apply wf_eq in Wf; tauto).
  assert (Np : is_prefix_of k (key_of base) = false /\ (length (snd k) =? 0)%nat = false).
  { destruct Uk as (c & r & ->). cbn [snd fst]. split; [|apply Nat.eqb_neq; rewrite app_length; simpl; lia].
    unfold is_prefix_of. cbn [fst snd]. apply andb_false_iff. right.
    destruct (comps_eqb _ _) eqn:Ec; auto. exfalso. apply comps_eqb_eq in Ec. apply (f_equal (@length _)) in Ec.
    rewrite firstn_length, !app_length in Ec. simpl in Ec. lia. }
  exists (S n). split; [lia|]. intros x id'. rewrite exists_eq by reflexivity. cbn [fst]. f_equal.
  unfold present. change (res_key (FileStorage id' base) _) with k. unfold on_disk, is_dir. rewrite (proj2 Np), orb_false_r.
  change (w_files (restart ?w) k) with (w_files w k). change (w_dirs (restart ?w) k) with (w_dirs w k).
  destruct x as [m j]. cbn [calls_done]. destruct (Nat.leb_spec (S n) m) as [X|X].
  - assert (Y : w_files (world_at (build_session b e lim a st ops) w (At m j)) k <> None).
    { rewrite (world_at_logs _ _ _ _ _ _ Lg). cbn [calls_done bytes_done].
      assert (Z : forall i, upto L (S n) i (w_files w) k <> None).
      { intros i. assert (Z := world_at_logs _ _ _ _ _ (At (S n) i) Lg). cbn [calls_done bytes_done] in Z. rewrite <- Z.
        destruct Lc as (_ & _ & _ & Lc). destruct (Lc (S n) i ltac:(lia)) as (w5 & R5 & F5). fold st in R5. 
        rewrite (session_inside _ _ _ _ _ _ _ _ _ R5), F5. eapply creates_after; [exact Cr|lia]. }
      destruct (Nat.eq_dec m (S n)) as [->|]; [apply Z|eapply upto_later; [|exact (Z O)]; lia]. }
    destruct (w_files (world_at _ w _) k); [reflexivity|congruence].
  - destruct Lc as (_ & _ & _ & Lc). destruct (Lc m j ltac:(lia)) as (w5 & R5 & F5). fold st in R5.
    rewrite (session_inside _ _ _ _ _ _ _ _ _ R5), F5, (creates_before k n L1 m j) by (auto; lia). 
    rewrite (proj1 Nk). 
    assert (Dw := within_create_archive (key_of base) b e st eq_refl eq_refl (ad_name a) (ad_schema a) (stop_at (At m j) w)).
    rewrite R5 in Dw. apply proj1 in Dw. specialize (Dw k). cbn [snd] in Dw.
    destruct (w_dirs w5 k); [|reflexivity].
    destruct (Dw eq_refl) as [D|D]; [|destruct Np; congruence]. change (w_dirs (stop_at (At m j) w) k) with (w_dirs w k) in D. destruct Nk. congruence.
Qed.

(** The other process looked too early: its signature replaces the first. *)
Lemma write_room_ready b e id base id' a w schema : let st := FileStorage id base in let st' := FileStorage id' base in
  let n := signature_name (ad_name a) in
  wf_archive true a -> dirs_apart a -> room a base w ->
  exists w', write b e st' n schema [] (restart w) = (Ret (Ok tt), w') /\
    w_files w' (res_key st n) = Some (resource_bytes []) /\ w_files w' (res_key st (schema_name n)) = Some schema /\
    forall k, k <> res_key st n -> k <> res_key st (schema_name n) -> w_files w' k = w_files w k.
Proof.
  intros st st' n Wf Da Rm.
  assert (L : located a base true a st' w) by (intros F; exists []; split; [reflexivity|split; [apply at_root|auto]]).
  destruct (located_ready true a base Wf Da a st' n w L (or_introl eq_refl)) as [R1 R2].
  destruct (write_progresses b e st' n schema [] (restart w) eq_refl I I R1 R2) as (w' & W).
  exists w'. split; [exact W|].
  destruct (write_cases b e st' n schema [] (restart w) _ w' I I W) as (T & [(_ & B1 & B2)|(_ & X & _)]).
  2:{ destruct X as [(k' & ?)|?]; discriminate. }
  split; [exact B1|]. split; [exact B2|]. intros k N1 N2.
  destruct T as ((_ & T & _) & _). apply (T k). intros [X|X]; injection X as X; auto.
Qed.

Lemma wrong_signature b e a base w schema : let st := FileStorage 0 base in let n := signature_name (ad_name a) in
  w_files w (res_key st n) = Some (resource_bytes []) -> w_files w (res_key st (schema_name n)) = Some schema ->
  schema_ok st schema -> schema <> ad_schema a ->
  fresh_open b e a base w = Ret (Er (EWrongSignature n)).
Proof.
  intros st n F1 F2 (U & Bs & Ls & Ns) D. specialize (Ns eq_refl).
  assert (R : fst (read b e (FileStorage 0 base) n (ad_schema a) (reader_world w)) = Ret (Er (EWrongSignature n))).
  { rewrite <- fresh_read_eq. assert (X := fresh_read_cases b e base n (ad_schema a) w). fold st in X. rewrite F1, F2 in X.
    unfold on_file in X. destruct (resource_bytes []) eqn:E; [exfalso; eapply resource_bytes_nonempty; eauto|].
    destruct schema as [|s0 sch0] eqn:Es; [congruence|]. rewrite <- E, <- Es in *. simpl in X. unfold checked in X. clear E Es z l.
    assert (Do : data_ok []) by (split; [apply Forall_nil|vm_compute; discriminate]).
    destruct (check_resource_cases b e n (ad_schema a) (resource_bytes []) schema (resource_bytes_ok [] Do))
      as [(r & E' & V & K)|(_ & _ & H & _)].
    - rewrite E' in X. rewrite X. inversion V as [| X1 | |? ? ? ? ? ? X1]; subst; try congruence.
      + exfalso. match goal with H : forall d pad, _ |- _ => apply (H [] (zeros 8) eq_refl) end. reflexivity.
      + destruct r; try discriminate. cbn in X1. congruence.
    - unfold resource_bytes in H. rewrite header_framed in H by (vm_compute; auto). exfalso. vm_compute in H. apply H. reflexivity. }
  change (fresh_open b e a base w) with (fst (open_archive b e a (FileStorage 0 base) (reader_world w))).
  destruct a as [name sch ss vs ms rs subs]. cbn [open_archive ad_name ad_schema] in *. fold n. unfold mtry at 1. unfold mbind at 1.
  destruct (read _ _ _ _ _ _) as [o w']. cbn [fst] in R. subst o. reflexivity.
Qed.

Lemma race_lost b e lim a id base ops A w : let st := FileStorage id base in
  wf_archive true a -> dirs_apart a -> maps_ok w -> unused_storage st w -> empty_place st w ->
  history true a no_plan ops A ->
  exists s w2, build_session b e lim a st ops w = (Ret (Ok (repeat true (length ops), s)), w2) /\
  forall b2 e2 id' schema W1,
    fst (exists_ (FileStorage id' base) (signature_name (ad_name a)) (restart W1)) = Ret false ->
    exists w3, create_between b2 e2 id' base (ad_name a) schema W1 w2 = (Ret (Ok tt), w3) /\
      (schema = ad_schema a -> forall k, w_files w3 k = w_files w2 k) /\
      (schema <> ad_schema a -> schema_ok st schema -> forall b' e',
         fresh_open b' e' a base w3 = Ret (Er (EWrongSignature (signature_name (ad_name a))))).
Proof.
  intros st Wf Da M Un Em H.
  destruct (build_progress b e lim a st w ops A Wf Da M Un Em H) as (w1 & s2 & w2 & R1 & R2 & Rm).
  destruct (builder_new_ok _ b e a st w st w1 Wf eq_refl M Un R1) as (_ & S1 & _ & M1).
  destruct (brun_ok _ b e lim a ops st no_plan A (new_bstate st) w1 _ s2 w2 Wf eq_refl M1 S1 H R2) as (S2 & _ & _).
  { apply Forall_forall. intros x Hx. symmetry. eapply repeat_spec; eauto. }
  exists s2, w2. split; [unfold build_session, mtry, mbind; rewrite R1, R2; reflexivity|].
  intros b2 e2 id' schema W1 X.
  destruct (write_room_ready b2 e2 id base id' a w2 schema Wf Da (Rm eq_refl)) as (w3 & W & F1 & F2 & F3).
  exists w3. split; [unfold create_between; rewrite X; unfold mtry, mbind; rewrite W; reflexivity|]. split.
  - intros ->. apply sim_eq in S2. destruct S2 as (_ & _ & S2 & _). destruct (S2 SSig) as (G1 & G2 & _).
    change (w_files w2 (res_key st (signature_name (ad_name a))) = Some (resource_bytes [])) in G1.
    change (w_files w2 (res_key st (schema_name (signature_name (ad_name a)))) = Some (ad_schema a)) in G2.
    intros k. destruct (key_eqb k (res_key st (signature_name (ad_name a)))) eqn:K1.
    { apply key_eqb_eq in K1. subst k. exact (eq_trans F1 (eq_sym G1)). }
    destruct (key_eqb k (res_key st (schema_name (signature_name (ad_name a))))) eqn:K2.
    { apply key_eqb_eq in K2. subst k. exact (eq_trans F2 (eq_sym G2)). }
    apply F3; intros X'; apply key_eqb_eq in X'.
    + assert (Y : true = false) by (rewrite <- K1; symmetry; exact X'). discriminate Y.
    + assert (Y : true = false) by (rewrite <- K2; symmetry; exact X'). discriminate Y.
  - intros D Ok b' e'. apply (wrong_signature b' e' a base w3 schema); auto.
Qed.
