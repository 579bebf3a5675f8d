(** Facts about opening archives on narrow targets. *)
From Verif Require Import Base BaseFacts Codec CodecSpec CodecFacts Structs StructsSpec StructsFacts Views ViewsSpec ViewsFacts.
From Verif Require Import Storage PathFacts StorageSpec StorageFacts StorageMore StorageUse Writers WritersSpec.
From Verif Require Import MultiViews MultiSpec Archives ArchiveSpec ArchiveFacts Width WidthFacts WidthArchives WidthArchSpec.
Local Open Scope list_scope.
Local Open Scope Z_scope.
Local Arguments firstn : simpl never.
Local Arguments skipn : simpl never.

Section Width.
Variable W : Z.

Definition sub_part_w (strict : bool) (p : place) (s : string * adesc * bool) (y : option archive) : Prop :=
  match y with
  | Some x' => opened_w W strict (snd (fst s)) (sub_place p (fst (fst s))) x'
  | None => snd s = true /\ (strict = true -> forall x', ~ opened_w W strict (snd (fst s)) (sub_place p (fst (fst s))) x')
  end.
Lemma opened_w_eq strict a p x : opened_w W strict a p x <->
  (exists d, holds_w W p (signature_name (ad_name a)) (ad_schema a) d) /\
  Forall2 (typed_part_w W strict p) (ad_structs a) (ar_structs x) /\
  Forall2 (typed_part_w W strict p) (ad_vectors a) (ar_vectors x) /\
  Forall2 (multi_part_w W strict p) (ad_multis a) (ar_multis x) /\
  Forall2 (raw_part_w W strict p) (ad_raws a) (ar_raws x) /\
  Forall2 (sub_part_w strict p) (ad_subs a) (ar_subs x).
Proof.
  destruct a as [name schema ss vs ms rs subs]. cbn [opened_w ad_name ad_schema ad_structs ad_vectors ad_multis ad_raws ad_subs].
  match goal with |- _ /\ _ /\ _ /\ _ /\ _ /\ ?G _ _ <-> _ => set (go := G) end.
  assert (H : forall l ys, go l ys <-> Forall2 (sub_part_w strict p) l ys).
  { induction l as [|[[n a] opt] l IH]; intros [|y ys]; simpl.
    - split; auto.
    - split; [contradiction|inversion 1].
    - split; [contradiction|inversion 1].
    - rewrite IH. split; [intros (A & B); constructor; auto|inversion 1; subst; auto]. }
  rewrite H. reflexivity.
Qed.

Definition open_sub_w b e (st : storage) (s : string * adesc * bool) : M (result (option archive) rs_error) :=
  check_part (snd s) (let! st' := subdir st (fst (fst s)) in open_archive_w W b e (snd (fst s)) st').
Lemma open_w_eq b e a st w : open_archive_w W b e a st w =
  (let? _ := read_w W b e st (signature_name (ad_name a)) (ad_schema a) in
   let? ss := each (open_typed_w W b e st) (ad_structs a) in
   let? vs := each (open_typed_w W b e st) (ad_vectors a) in
   let? ms := each (open_multi_w W b e st) (ad_multis a) in
   let? rs := each (open_raw_w W b e st) (ad_raws a) in
   let? us := each (open_sub_w b e st) (ad_subs a) in
   mret (Ok (mkOpened ss vs ms rs us))) w.
Proof.
  destruct a as [name schema ss vs ms rs subs].
  cbn [open_archive_w ad_name ad_schema ad_structs ad_vectors ad_multis ad_raws ad_subs].
  match goal with |- _ = ?R => match goal with |- context [mtry _ (?G subs) _] => set (go := G) end end.
  assert (H : forall l w, go l w = each (open_sub_w b e st) l w).
  { induction l as [|[[n a] opt] l IH]; intros w0; [reflexivity|]. cbn [each]. unfold open_sub_w at 1. cbn [fst snd].
    unfold go at 1. fold go. unfold mtry, mbind.
    destruct (check_part opt _ w0) as [[[y|x]| | |] w1]; auto. rewrite IH. reflexivity. }
  unfold mtry, mbind.
  destruct (read_w _ _ _ _ _ _ w) as [[[d|x]| | |] w1]; auto.
  destruct (each (open_typed_w W b e st) ss w1) as [[[y1|x]| | |] w2]; auto.
  destruct (each (open_typed_w W b e st) vs w2) as [[[y2|x]| | |] w3]; auto.
  destruct (each (open_multi_w W b e st) ms w3) as [[[y3|x]| | |] w4]; auto.
  destruct (each (open_raw_w W b e st) rs w4) as [[[y4|x]| | |] w5]; auto.
  rewrite H. reflexivity.
Qed.

(** As [read_cases], for both readers at once. *)
Lemma read_w_cases b e st name expected w : maps_ok w ->
  reads (cells_of st name) w (snd (read b e st name expected w)) /\
  ((exists c sc, finds st w name (Some c) /\ finds st w (schema_name name) (Some sc) /\
      fst (read b e st name expected w) = checked b e name expected c sc /\
      read_w W b e st name expected w = (check_resource_w W b e name expected (whole c) (whole sc), snd (read b e st name expected w))) \/
   (read_w W b e st name expected w = read b e st name expected w /\
    ((exists k, fst (read b e st name expected w) = Ret (Er (EIo k name)) /\
       ((is_file st = true /\ w_faults w <> []) \/
        (forall c, ~ finds st w name (Some c)) \/ (forall c, ~ finds st w (schema_name name) (Some c)))) \/
     (fst (read b e st name expected w) = Crash /\ is_file st = true /\ w_faults w <> []) \/
     (fst (read b e st name expected w) = UB /\ ((forall x, ~ finds st w name x) \/ (forall x, ~ finds st w (schema_name name) x)))))).
Proof.
  intros MO. unfold read_w, read, mtry, mbind.
  destruct (read_resource st name w) as [o1 w1] eqn:E1.
  destruct (read_resource_cases _ _ _ _ _ MO E1) as (R1 & X1).
  assert (RR1 : reads (cells_of st name) w w1) by (eapply reading_reads; [left; reflexivity|exact R1]).
  destruct X1 as (A1 & _ & P1 & U1 & C1 & K1).
  destruct o1 as [[d1|k1]| | |].
  2:{ split; [exact RR1|]. right. split; [reflexivity|]. left. exists k1. split; [reflexivity|]. destruct (K1 k1 eq_refl); auto. }
  2:{ congruence. }
  2:{ split; [exact RR1|]. right. split; [reflexivity|]. right. right. split; [reflexivity|]. left. apply U1. reflexivity. }
  2:{ split; [exact RR1|]. right. split; [reflexivity|]. right. left. split; [reflexivity|]. apply C1. reflexivity. }
  destruct (A1 d1 eq_refl) as (c & -> & Fc). clear A1 P1 U1 C1 K1.
  destruct (read_resource st (schema_name name) w1) as [o2 w2] eqn:E2.
  assert (MO1 : maps_ok w1) by (apply R1; auto).
  destruct (read_resource_cases _ _ _ _ _ MO1 E2) as (R2 & X2).
  assert (RR2 : reads (cells_of st name) w w2).
  { eapply reads_trans; [exact RR1|]. eapply reading_reads; [right; reflexivity|exact R2]. }
  destruct X2 as (A2 & _ & P2 & U2 & C2 & K2).
  assert (Cm : w_faults w1 <> [] -> w_faults w <> []) by (intros H H'; apply H, R1; auto).
  assert (Fd : forall x, finds st w (schema_name name) x -> finds st w1 (schema_name name) x) by apply R1.
  destruct o2 as [[d2|k2]| | |].
  2:{ split; [exact RR2|]. right. split; [reflexivity|]. left. exists k2. split; [reflexivity|].
      destruct (K2 k2 eq_refl) as [(F & H)|H]; auto. right. right. intros x Fx. eapply H; eauto. }
  2:{ congruence. }
  2:{ split; [exact RR2|]. right. split; [reflexivity|]. right. right. split; [reflexivity|]. right. intros x Fx. eapply U2; eauto. }
  2:{ split; [exact RR2|]. right. split; [reflexivity|]. right. left. destruct (C2 eq_refl). auto. }
  destruct (A2 d2 eq_refl) as (sc & -> & Fsc).
  split; [exact RR2|]. left. exists c, sc. split; [exact Fc|].
  assert (finds st w (schema_name name) (Some sc)).
  { eapply finds_touches_back; [apply R1| |exact Fsc]. intros H. symmetry in H. apply cell_schema in H. auto. }
  split; [assumption|]. split; reflexivity.
Qed.

(** * Equality *)
(** Both readers do the same at [p], and keep what [p] shows. *)
Definition same_at {B} (st : storage) (p : place) (m m' : M B) : Prop :=
  forall w, represents st w p -> m w = m' w /\ opening w (snd (m' w)).
Definition agree_on b e (p : place) (n : string) : Prop := forall schema c sc, found p n (Some c) ->
  check_resource_w W b e n schema (whole c) (whole sc) = check_resource b e n schema (whole c) (whole sc).

Lemma same_bind {A B} st p (m m' : M A) (f g : A -> M B) : same_at st p m m' -> (forall a, same_at st p (f a) (g a)) ->
  same_at st p (mbind m f) (mbind m' g).
Proof.
  intros H1 H2 w R. destruct (H1 w R) as (E & O). unfold mbind. rewrite E. destruct (m' w) as [[a| | |] w1] eqn:E1; cbn [snd] in *; auto.
  destruct (H2 a w1 (represents_opening _ _ _ _ O R)) as (E2 & O2). split; [exact E2|]. eapply opening_trans; eauto.
Qed.
Lemma same_ret {A} st p (a : A) : same_at st p (mret a) (mret a).
Proof. intros w R. split; [reflexivity|apply opening_refl]. Qed.
Lemma same_try {A B} st p (m m' : M (result A rs_error)) (f g : A -> M (result B rs_error)) : same_at st p m m' -> (forall a, same_at st p (f a) (g a)) ->
  same_at st p (mtry (fun err => err) m f) (mtry (fun err => err) m' g).
Proof. intros H1 H2. apply same_bind; auto. intros [a|x]; [apply H2|apply same_ret]. Qed.
Lemma same_check {A} st p opt (m m' : M (result A rs_error)) : same_at st p m m' -> same_at st p (check_part opt m) (check_part opt m').
Proof. intros H. apply same_bind; auto. intros [a|x]; apply same_ret. Qed.
Lemma same_each {A B} st p (f g : A -> M (result B rs_error)) l : (forall x, In x l -> same_at st p (f x) (g x)) -> same_at st p (each f l) (each g l).
Proof.
  induction l as [|x l IH]; intros H; cbn [each]; [apply same_ret|].
  apply same_try; [apply H; left; reflexivity|]. intros y. apply same_try; [apply IH; intros z Hz; apply H; right; exact Hz|]. intros ys. apply same_ret.
Qed.
Lemma same_read b e st p n schema : (exists x, found p n x) -> agree_on b e p n -> same_at st p (read_w W b e st n schema) (read b e st n schema).
Proof.
  intros Hx Ha w R. assert (MO := R). destruct MO as (MO & _).
  destruct (read_w_cases b e st n schema w MO) as (Rd & X). split; [|eapply reads_opening; eauto].
  destruct X as [(c & sc & F1 & F2 & E1 & ->)|(-> & _)]; [|reflexivity].
  apply (represents_found _ _ _ _ _ R Hx) in F1. rewrite (Ha schema c sc F1).
  destruct (read b e st n schema w) as [o w1]. cbn [fst snd] in *. unfold checked in E1. congruence.
Qed.
Lemma same_subdir {B} st p n (k k' : storage -> M (result B rs_error)) : (forall st', same_at st' (sub_place p n) (k st') (k' st')) ->
  same_at st p (let! st' := subdir st n in k st') (let! st' := subdir st n in k' st').
Proof.
  intros H w R. unfold mbind. destruct (subdir st n w) as [o1 w1] eqn:E1.
  destruct (subdir_represents _ _ _ _ _ _ R E1) as (O1 & st' & -> & R'). destruct (H st' w1 R') as (E & O). split; [exact E|]. eapply opening_trans; eauto.
Qed.
Lemma same_open b e a : forall st p, everywhere readable a p -> everywhere (agree_on b e) a p ->
  same_at st p (open_archive_w W b e a st) (open_archive b e a st).
Proof.
  induction a as [name schema ss vs ms rs subs IH] using adesc_deep_ind. intros st p Rd Ag.
  apply everywhere_eq in Rd. destruct Rd as (Rd & Rs). apply part_names_all in Rd. destruct Rd as (R0 & R1 & R2 & R3 & R4).
  apply everywhere_eq in Ag. destruct Ag as (Ag & As). apply part_names_all in Ag. destruct Ag as (A0 & A1 & A2 & A3 & A4).
  rewrite Forall_forall in R1, R2, R3, R4, Rs, IH, A1, A2, A3, A4, As.
  set (a := mkArchive name schema ss vs ms rs subs) in *.
  intros w Re. rewrite open_w_eq, open_eq. revert w Re.
  match goal with |- forall w, _ -> ?m w = ?m' w /\ _ => change (same_at st p m m') end.
  apply same_try; [apply same_read; [apply R0|exact A0]|]. intros _.
  apply same_try; [apply same_each; intros r Hr; apply same_check, same_read; [apply (R1 r Hr)|apply (A1 r Hr)]|]. intros y1.
  apply same_try; [apply same_each; intros r Hr; apply same_check, same_read; [apply (R2 r Hr)|apply (A2 r Hr)]|]. intros y2.
  apply same_try.
  { apply same_each. intros r Hr. destruct (R3 r Hr) as (Q1 & Q2). destruct (A3 r Hr) as (B1 & B2). unfold open_multi_w, open_multi.
    apply same_try; [apply same_check, same_read; [apply Q1|exact B1]|]. intros i.
    apply same_try; [apply same_check, same_read; [apply Q2|exact B2]|]. intros d. apply same_ret. }
  intros y3.
  apply same_try; [apply same_each; intros r Hr; apply same_check, same_read; [apply (R4 r Hr)|apply (A4 r Hr)]|]. intros y4.
  apply same_try; [|intros y5; apply same_ret].
  apply same_each. intros r Hr. unfold open_sub_w, open_sub. apply same_check, same_subdir. intros st'. apply (IH r Hr); [apply (Rs r Hr)|apply (As r Hr)].
Qed.

(** * Exactly what is accepted *)
Hypothesis HW : 8 <= W <= 64.

Lemma holds_w_slice p n schema d : readable p n -> holds_w W p n schema d ->
  exists sl, sl_bytes sl = d /\ slice_ok sl /\ len (sl_mem sl) = sl_len sl + 8.
Proof.
  intros (_ & _ & S) (h & pad & F & L & _). specialize (S _ F). destruct S as (B & Lc).
  apply Forall_app in B. destruct B as (_ & B). rewrite !len_app, len_le_bytes in Lc.
  assert (0 <= len d) by apply len_nonneg.
  exists (mkSlice (d ++ pad) (len d)). unfold sl_bytes, slice_ok. cbn [sl_mem sl_len].
  rewrite firstn_app_exact by (unfold len; rewrite Nat2Z.id; reflexivity). rewrite len_app. repeat split; auto; lia.
Qed.
Lemma check_w_slice b e n schema c sc d : stored_ok c -> len c <= 2 ^ (W - 1) - 1 ->
  check_resource_w W b e n schema (whole c) (whole sc) = Ret (Ok d) -> slice_ok d /\ len (sl_mem d) = sl_len d + 8.
Proof.
  intros (B & Lc) L. rewrite check_w_ok by auto. unfold check_w. destruct (len c <? 16) eqn:E16; [discriminate|]. cbv zeta.
  assert (HS := Z.mod_pos_bound (header c) (2 ^ W) ltac:(apply Z.pow_pos_nonneg; lia)). set (s := header c mod 2 ^ W) in *. clearbody s.
  destruct (s + 16 =? len c) eqn:Et; [|destruct b; [destruct (2 ^ W <=? s + 16)|]; discriminate].
  unfold tail_w. destruct (utf8_ok sc); [|discriminate]. cbn [negb]. destruct (bytes_eqb sc schema); [|discriminate]. cbn [negb]. intros E.
  assert (d = mkSlice (skipn 8 c) s) as -> by congruence. assert (L1 : len (skipn 8 c) = s + 8) by (unfold len in *; rewrite skipn_length; lia).
  unfold slice_ok. cbn [sl_mem sl_len]. repeat split; try lia. apply Forall_forall. intros x Hx. eapply (proj1 (Forall_forall _ _) B).
  rewrite <- (firstn_skipn 8 c). apply in_or_app. right. exact Hx.
Qed.
Lemma does_read_w b e st p n schema : readable_w W p n ->
  does st p (read_w W b e st n schema) b
    (fun strict sl => holds_w W p n schema (sl_bytes sl) /\ slice_ok sl /\ len (sl_mem sl) = sl_len sl + 8) (tame_w W p n).
Proof.
  intros ((X1 & X2 & S) & Lw) w o w' R E. assert (MO := R). destruct MO as (MO & _).
  destruct (read_w_cases b e st n schema w MO) as (Rd & X). assert (Hw' : w' = snd (read b e st n schema w)).
  { destruct X as [(? & ? & _ & _ & _ & X)|(X & _)]; rewrite X in E; [congruence|]. rewrite E. reflexivity. }
  subst w'. split; [eapply reads_opening; eauto|].
  assert (Fw : forall m x, found p m x -> finds st w m x) by apply R.
  destruct X as [(c & sc & F1 & F2 & _ & X)|(Eq & X)].
  - rewrite X in E. assert (o = check_resource_w W b e n schema (whole c) (whole sc)) by congruence. subst o. clear E X.
    apply (represents_found _ _ _ _ _ R X1) in F1. apply (represents_found _ _ _ _ _ R X2) in F2.
    assert (Ex := fun D => check_exact W b e n schema c sc D HW (proj1 (S c F1)) (Lw c F1)).
    assert (Sl := fun d => check_w_slice b e n schema c sc d (S c F1) (Lw c F1)).
    assert (Ck := check_w_ok W b e n schema c sc HW (proj1 (S c F1)) (Lw c F1)).
    destruct (check_resource_w W b e n schema (whole c) (whole sc)) as [[sl|x]| | |] eqn:E1.
    + intros strict _. split; [|apply Sl; reflexivity].
      destruct (proj1 (Ex (sl_bytes sl))) as (U & -> & h & pad & -> & Lp & Hh & Hm); [eauto|]. exists h, pad. auto 10.
    + intros _ sl ((h & pad & G1 & Lp & Hh & Hm & G2 & U) & _).
      assert (Y1 := found_fun _ _ _ _ F1 G1). assert (Y2 := found_fun _ _ _ _ F2 G2). injection Y1 as ->. injection Y2 as ->.
      destruct (proj2 (Ex (sl_bytes sl))) as (d & D & _); [|discriminate]. split; auto. split; auto. exists h, pad. auto.
    + symmetry in Ck. unfold check_w in Ck. destruct (len c <? 16) eqn:E16; [discriminate|]. cbv zeta in Ck.
      destruct (header c mod 2 ^ W + 16 =? len c); [discriminate|]. destruct b; [|discriminate].
      split; auto. intros T. specialize (T c F1 ltac:(lia)). destruct (2 ^ W <=? header c mod 2 ^ W + 16) eqn:E3; [lia|discriminate].
    + symmetry in Ck. unfold check_w in Ck. destruct (len c <? 16); [discriminate|]. cbv zeta in Ck.
      destruct (header c mod 2 ^ W + 16 =? len c); [discriminate|]. destruct b; [destruct (2 ^ W <=? _)|]; discriminate.
    + symmetry in Ck. unfold check_w in Ck. destruct (len c <? 16); [discriminate|]. cbv zeta in Ck.
      destruct (header c mod 2 ^ W + 16 =? len c); [discriminate|]. destruct b; [destruct (2 ^ W <=? _)|]; discriminate.
  - rewrite Eq in E. rewrite E in X. cbn [fst] in X. destruct X as [(k & -> & X)|[(-> & _ & X)|(-> & X)]].
    + intros Hf sl ((h & pad & F1 & _ & _ & _ & F2 & _) & _).
      destruct X as [(_ & ?)|[X|X]]; [contradiction|eapply X; eauto|eapply X; eauto].
    + exact X.
    + destruct X1 as (x1 & F1). destruct X2 as (x2 & F2). destruct X as [X|X]; eapply X; eauto.
Qed.
Lemma does_part_w b e st p opt n schema : readable_w W p n ->
  does st p (check_part opt (read_w W b e st n schema)) b (fun s y => part_w W s p opt n schema y) (tame_w W p n).
Proof.
  intros Rd. eapply does_weaken; [apply does_check, does_read_w; exact Rd| |auto].
  intros s [sl|]; simpl; [reflexivity|]. split; intros (A & B); (split; [exact A|]); intros Hs.
  - intros d Hd. destruct (holds_w_slice _ _ _ _ (proj1 Rd) Hd) as (sl & <- & S). apply (B Hs sl). auto.
  - intros sl (H & _). apply (B Hs _ H).
Qed.
Lemma does_multi_w b e st p r : readable_w W p (mr_index r) -> readable_w W p (mr_name r) ->
  does st p (open_multi_w W b e st r) b (fun s y => multi_part_w W s p r y) (tame_w W p (mr_index r) /\ tame_w W p (mr_name r)).
Proof.
  intros R1 R2. unfold open_multi_w.
  eapply does_weaken with (T := tame_w W p (mr_index r) /\ tame_w W p (mr_name r) /\ True); [|shelve|tauto].
  apply does_try; [apply does_part_w; exact R1| |shelve].
  intros i. apply does_try; [apply does_part_w; exact R2| |shelve]. intros d. apply (does_ret st p b (i, d)).
  Unshelve.
  - intros s [i d]. unfold multi_part_w. simpl. split.
    + intros (i' & H1 & d' & H2 & [= -> ->]). auto.
    + intros (H1 & H2). eauto 6.
  - intros y y' z (d & H1 & H2). eauto.
  - intros y y' z Hz. eauto.
Qed.
Lemma does_open_w b e a : forall st p, everywhere (readable_w W) a p ->
  does st p (open_archive_w W b e a st) b (fun s x => opened_w W s a p x) (everywhere (tame_w W) a p).
Proof.
  induction a as [name schema ss vs ms rs subs IH] using adesc_deep_ind.
  intros st p Rd. apply everywhere_eq in Rd. destruct Rd as (Rd & Rs).
  apply part_names_all in Rd. destruct Rd as (R0 & R1 & R2 & R3 & R4).
  rewrite Forall_forall in R1, R2, R3, R4, Rs, IH.
  set (a := mkArchive name schema ss vs ms rs subs) in *.
  intros w o w' Re E. rewrite open_w_eq in E.
  revert w o w' Re E.
  match goal with |- forall w o w', _ -> ?m w = _ -> _ => change (does st p m b (fun s x => opened_w W s a p x) (everywhere (tame_w W) a p)) end.
  eapply does_weaken with (T := tame_w W p (signature_name (ad_name a)) /\
    Forall (fun r => tame_w W p (tr_name r)) (ad_structs a) /\
    Forall (fun r => tame_w W p (tr_name r)) (ad_vectors a) /\
    Forall (fun r => tame_w W p (mr_index r) /\ tame_w W p (mr_name r)) (ad_multis a) /\
    Forall (fun r => tame_w W p (rr_name r)) (ad_raws a) /\
    Forall (fun s => everywhere (tame_w W) (snd (fst s)) (sub_place p (fst (fst s)))) (ad_subs a) /\ True).
  - apply does_try; [apply does_read_w; exact R0| |shelve]. intros sl0.
    apply does_try; [apply does_each with (R := fun s => typed_part_w W s p); intros r Hr; apply does_part_w; apply R1, Hr| |shelve]. intros ys1.
    apply does_try; [apply does_each with (R := fun s => typed_part_w W s p); intros r Hr; apply does_part_w; apply R2, Hr| |shelve]. intros ys2.
    apply does_try; [apply does_each with (R := fun s => multi_part_w W s p); intros r Hr; apply does_multi_w; apply R3, Hr| |shelve]. intros ys3.
    apply does_try; [apply does_each with (R := fun s => raw_part_w W s p); intros r Hr; apply does_part_w; apply R4, Hr| |shelve]. intros ys4.
    apply does_try; [| |shelve].
    + apply does_each with (R := fun s => sub_part_w s p)
        (T := fun s => everywhere (tame_w W) (snd (fst s)) (sub_place p (fst (fst s)))).
      intros r Hr. unfold open_sub_w. eapply does_weaken; [apply does_check, does_subdir; intros st'; apply (IH r Hr); apply Rs, Hr| |auto].
      intros s [x|]; simpl; [reflexivity|]. split; intros (A & B); (split; [exact A|]); intros Hs x; subst s; apply B; auto.
    + intros ys5. apply (does_ret st p b (mkOpened ys1 ys2 ys3 ys4 ys5)).
  - intros s x. rewrite opened_w_eq. split.
    + intros (sl0 & (H0 & _) & y1 & H1 & y2 & H2 & y3 & H3 & y4 & H4 & y5 & H5 & ->). simpl. eauto 10.
    + intros ((d & H0) & H1 & H2 & H3 & H4 & H5). destruct x as [y1 y2 y3 y4 y5].
      destruct (holds_w_slice _ _ _ _ (proj1 R0) H0) as (sl & <- & Sl). exists sl. split; [auto|].
      exists y1. split; [exact H1|]. exists y2. split; [exact H2|]. exists y3. split; [exact H3|].
      exists y4. split; [exact H4|]. exists y5. split; [exact H5|reflexivity].
  - rewrite everywhere_eq, part_names_all. tauto.
  Unshelve.
  all: clear HW; intros y y' z Hz; cbn beta in *; repeat match goal with H : exists _, _ |- _ => destruct H | H : _ /\ _ |- _ => destruct H end;
    repeat match goal with |- exists _, _ => eexists | |- _ /\ _ => split; [eassumption|] end; reflexivity.
Qed.
Lemma open_w_exact b e a st w : let p := PStorage st w in
  w_faults w = [] -> maps_ok w -> (st_id st < w_next w)%nat -> everywhere (readable_w W) a p ->
  (b = Release \/ everywhere (tame_w W) a p) ->
  exists r w', open_archive_w W b e a st w = (Ret r, w') /\
    match r with Ok x => opened_w W true a p x | Er _ => forall x, ~ opened_w W true a p x end.
Proof.
  intros p Hf MO Hi Rd T. destruct (open_archive_w W b e a st w) as [o w'] eqn:E.
  destruct (does_open_w b e a st p Rd w o w' (represents_self st w MO Hi) E) as (_ & X).
  destruct o as [[x|x]| | |].
  - exists (Ok x), w'. split; [reflexivity|]. apply X; auto.
  - exists (Er x), w'. split; [reflexivity|]. apply X, Hf.
  - destruct X as (-> & N). destruct T as [T|T]; [discriminate|contradiction].
  - contradiction.
  - contradiction.
Qed.
Lemma open_w_sound b e a st w o w' : let p := PStorage st w in
  maps_ok w -> (st_id st < w_next w)%nat -> everywhere (readable_w W) a p ->
  open_archive_w W b e a st w = (o, w') ->
  w_files w' = w_files w /\ w_dirs w' = w_dirs w /\
  (forall id, (id < w_next w)%nat -> w_streams w' id = w_streams w id) /\
  o <> UB /\ (forall x, o = Ret (Ok x) -> opened_w W false a p x).
Proof.
  intros p MO Hi Rd E.
  destruct (does_open_w b e a st p Rd w o w' (represents_self st w MO Hi) E) as ((_ & F & D & _ & _ & S & _) & X).
  split; [exact F|]. split; [exact D|]. split; [exact S|]. split; [intros ->; exact X|].
  intros x ->. apply X; discriminate.
Qed.
End Width.

Lemma everywhere_weaken (Q R : place -> string -> Prop) a : (forall p n, Q p n -> R p n) -> forall p, everywhere Q a p -> everywhere R a p.
Proof.
  intros H. induction a as [name schema ss vs ms rs subs IH] using adesc_deep_ind. intros p E. apply everywhere_eq in E. destruct E as (E1 & E2).
  apply everywhere_eq. split; [eapply Forall_impl; [|exact E1]; intros n; apply H|].
  cbn [ad_subs] in *. rewrite Forall_forall in *. intros s Hs. apply (IH s Hs), E2, Hs.
Qed.
Lemma open_64 b e a st w : let p := PStorage st w in maps_ok w -> (st_id st < w_next w)%nat -> everywhere readable a p ->
  open_archive_w 64 b e a st w = open_archive b e a st w.
Proof.
  intros p MO Hi Rd. apply (same_open 64 b e a st p Rd); [|apply represents_self; auto].
  eapply everywhere_weaken; [|exact Rd]. intros q n (_ & _ & S) schema c sc F. apply check_64. apply (S c F).
Qed.
Lemma open_portable W b e a st w : 8 <= W <= 64 -> let p := PStorage st w in maps_ok w -> (st_id st < w_next w)%nat ->
  everywhere (readable_w W) a p -> everywhere (low W) a p ->
  open_archive_w W b e a st w = open_archive b e a st w.
Proof.
  intros HW p MO Hi Rd Lo. apply (same_open W b e a st p); [|clear MO Hi; revert Lo Rd; generalize p; clear p|apply represents_self; auto].
  - eapply everywhere_weaken; [|exact Rd]. intros q n (H & _). exact H.
  - induction a as [name schema ss vs ms rs subs IH] using adesc_deep_ind. intros p E1 E2. apply everywhere_eq in E1, E2.
    destruct E1 as (A1 & A2). destruct E2 as (B1 & B2). apply everywhere_eq. split.
    + rewrite Forall_forall in *. intros n Hn sch c sc F. destruct (B1 n Hn) as ((_ & _ & S) & L). specialize (A1 n Hn).
      apply check_portable; auto. apply (S c F).
    + cbn [ad_subs] in *. rewrite Forall_forall in *. intros s Hs. apply (IH s Hs); [apply A2, Hs|apply B2, Hs].
Qed.

(** * What opens on a 64-bit target *)
Lemma within_eq x y : within x y <->
  Forall2 (kept same_bytes) (ar_structs x) (ar_structs y) /\ Forall2 (kept same_bytes) (ar_vectors x) (ar_vectors y) /\
  Forall2 (fun m m' => kept same_bytes (fst m) (fst m') /\ kept same_bytes (snd m) (snd m')) (ar_multis x) (ar_multis y) /\
  Forall2 (kept same_bytes) (ar_raws x) (ar_raws y) /\ Forall2 (kept within) (ar_subs x) (ar_subs y).
Proof.
  destruct x as [ss vs ms rs us]. cbn [within ar_structs ar_vectors ar_multis ar_raws ar_subs].
  match goal with |- _ /\ _ /\ _ /\ _ /\ ?G _ _ <-> _ => set (go := G) end.
  assert (H : forall l l', go l l' <-> Forall2 (kept within) l l').
  { induction l as [|y0 l IH]; intros [|y1 l']; simpl.
    - split; auto.
    - split; [contradiction|inversion 1].
    - split; [contradiction|inversion 1].
    - rewrite IH. split.
      + intros (A & B). constructor; auto. intros s ->. exact A.
      + inversion 1 as [|? ? ? ? Hk Hl]; subst. split; auto. destruct y0 as [u|]; auto. }
  rewrite H. reflexivity.
Qed.

Section Wider.
Variable W : Z.
Hypothesis HW : 8 <= W <= 64.
Lemma holds_narrow p n schema d : readable_w W p n -> holds p n schema d -> holds_w W p n schema d.
Proof.
  intros ((_ & _ & S) & L) (c & pad & F & -> & Lp & F2 & U). exists (len d), pad. specialize (L _ F). specialize (S _ F). destruct S as (_ & S).
  unfold framed in *. rewrite !len_app, len_le_bytes in L, S. assert (0 <= len d) by apply len_nonneg.
  assert (2 ^ (W - 1) <= 2 ^ W) by (apply Z.pow_le_mono_r; lia). assert (2 ^ W <= 2 ^ 64) by (apply Z.pow_le_mono_r; lia).
  rewrite Z.mod_small by lia. repeat split; auto; lia.
Qed.
Lemma holds_w_dec p n schema : readable_w W p n -> (exists d, holds_w W p n schema d) \/ forall d, ~ holds_w W p n schema d.
Proof.
  intros (((x & F1) & (y & F2) & S) & L).
  destruct x as [c|].
  2:{ right. intros d (h & pad & F & _). assert (X := found_fun _ _ _ _ F1 F). discriminate. }
  destruct y as [sc|].
  2:{ right. intros d (h & pad & _ & _ & _ & _ & F & _). assert (X := found_fun _ _ _ _ F2 F). discriminate. }
  assert (Ex := fun D => check_exact W Release LE n schema c sc D HW (proj1 (S c F1)) (L c F1)).
  assert (No : (forall d, check_resource_w W Release LE n schema (whole c) (whole sc) <> Ret (Ok d)) -> forall d, ~ holds_w W p n schema d).
  { intros N d (h & pad & G1 & Lp & Hh & Hm & G2 & U). assert (Y1 := found_fun _ _ _ _ F1 G1). assert (Y2 := found_fun _ _ _ _ F2 G2).
    injection Y1 as ->. injection Y2 as ->. destruct (proj2 (Ex d)) as (d' & D & _); [|elim (N _ D)]. split; auto. split; auto. exists h, pad. auto. }
  destruct (check_resource_w W Release LE n schema (whole c) (whole sc)) as [[sl|x]| | |] eqn:E1; try (right; apply No; discriminate).
  left. exists (sl_bytes sl). destruct (proj1 (Ex (sl_bytes sl))) as (U & -> & h & pad & -> & Lp & Hh & Hm); [eauto|]. exists h, pad. auto 10.
Qed.
Lemma sl_bytes_len sl : slice_ok sl -> len (sl_bytes sl) = sl_len sl.
Proof. clear HW. intros (H & _). unfold sl_bytes. rewrite len_firstn by lia. lia. Qed.
Lemma part_wider p opt n schema y : readable_w W p n -> part true p opt n schema y ->
  exists y', part_w W true p opt n schema y' /\ kept same_bytes y y'.
Proof.
  intros Rd. destruct y as [sl|].
  - intros (H & S & L). exists (Some sl). split; [split; [apply holds_narrow; auto|auto]|]. intros s [= <-]. exists sl. unfold same_bytes. auto.
  - intros (-> & _). destruct (holds_w_dec p n schema Rd) as [(d & Hd)|N].
    + destruct (holds_w_slice W p n schema d (proj1 Rd) Hd) as (sl & <- & X). exists (Some sl). split; [split; auto|]. intros s. discriminate.
    + exists None. split; [split; auto|]. intros s. discriminate.
Qed.
Lemma Forall2_wider {A B} (R R' : A -> B -> Prop) (K : B -> B -> Prop) l ys : Forall2 R l ys ->
  (forall x y, In x l -> R x y -> exists y', R' x y' /\ K y y') -> exists ys', Forall2 R' l ys' /\ Forall2 K ys ys'.
Proof.
  induction 1 as [|x y l ys Hx HF IH]; intros H; [exists []; split; constructor|].
  destruct (H x y (or_introl eq_refl) Hx) as (y' & H1 & H2). destruct IH as (ys' & H3 & H4); [intros; apply H; auto; right; auto|].
  exists (y' :: ys'). split; constructor; auto.
Qed.
Lemma opened_w_dec a p n : everywhere (readable_w W) a (sub_place p n) ->
  (exists x, opened_w W true a (sub_place p n) x) \/ forall x, ~ opened_w W true a (sub_place p n) x.
Proof.
  intros Rd. assert (K : (exists base w, sub_place p n = PDisk base w) \/ sub_place p n = PEmpty).
  { destruct p as [[id base|id base] w|base w|]; simpl; eauto. }
  destruct K as [(base & w & E)|E]; rewrite E in *.
  - destruct (open_archive_w W Release LE a (FileStorage 0 base) (reader_world w)) as [o w'] eqn:Eo.
    destruct (does_open_w W HW Release LE a _ _ Rd _ _ _ (represents_disk base w) Eo) as (_ & X).
    destruct o as [[x|x]| | |]; [left; exists x; apply X; auto|right; apply X; reflexivity|destruct X; discriminate|contradiction|contradiction].
  - right. intros x Hx. apply opened_w_eq in Hx. destruct Hx as ((d & h & pad & F & _) & _). discriminate F.
Qed.
Lemma opened_wider a : forall p x, everywhere (readable_w W) a p -> opened true a p x -> exists y, opened_w W true a p y /\ within x y.
Proof.
  induction a as [name schema ss vs ms rs subs IH] using adesc_deep_ind. intros p x Rd.
  apply everywhere_eq in Rd. destruct Rd as (Rd & Rs). apply part_names_all in Rd. destruct Rd as (R0 & R1 & R2 & R3 & R4).
  rewrite Forall_forall in R1, R2, R3, R4, Rs, IH.
  rewrite opened_eq. intros ((d0 & H0) & H1 & H2 & H3 & H4 & H5).
  destruct (Forall2_wider _ (typed_part_w W true p) (kept same_bytes) _ _ H1) as (y1 & A1 & B1); [intros r y Hr; apply part_wider, R1, Hr|].
  destruct (Forall2_wider _ (typed_part_w W true p) (kept same_bytes) _ _ H2) as (y2 & A2 & B2); [intros r y Hr; apply part_wider, R2, Hr|].
  destruct (Forall2_wider _ (multi_part_w W true p) (fun m m' => kept same_bytes (fst m) (fst m') /\ kept same_bytes (snd m) (snd m')) _ _ H3) as (y3 & A3 & B3).
  { intros r [i d] Hr (Q1 & Q2). destruct (R3 r Hr) as (S1 & S2). destruct (part_wider _ _ _ _ _ S1 Q1) as (i' & T1 & U1).
    destruct (part_wider _ _ _ _ _ S2 Q2) as (d' & T2 & U2). exists (i', d'). split; split; auto. }
  destruct (Forall2_wider _ (raw_part_w W true p) (kept same_bytes) _ _ H4) as (y4 & A4 & B4); [intros r y Hr; apply part_wider, R4, Hr|].
  destruct (Forall2_wider _ (sub_part_w W true p) (kept within) _ _ H5) as (y5 & A5 & B5).
  { intros s y Hs Q. destruct y as [u|]; simpl in Q.
    - destruct (IH s Hs _ u (Rs s Hs) Q) as (u' & T1 & T2). exists (Some u'). split; [exact T1|]. intros v [= <-]. eauto.
    - destruct Q as (Q1 & _). destruct (opened_w_dec (snd (fst s)) p (fst (fst s)) (Rs s Hs)) as [(u' & T)|N].
      + exists (Some u'). split; [exact T|]. intros v. discriminate.
      + exists None. split; [split; auto|]. intros v. discriminate. }
  exists (mkOpened y1 y2 y3 y4 y5). rewrite opened_w_eq, within_eq. cbn [ar_structs ar_vectors ar_multis ar_raws ar_subs].
  split; [|auto]. split; [|auto]. exists d0. apply holds_narrow; auto.
Qed.

Lemma part_w_fun p opt n schema y y' : part_w W true p opt n schema y -> part_w W true p opt n schema y' -> option_map cut y = option_map cut y'.
Proof.
  clear HW. destruct y as [sl|], y' as [sl'|]; simpl; auto.
  - intros ((h & pad & F1 & L1 & Hh & Hm & _) & S & _) ((h' & pad' & F2 & L2 & Hh' & Hm' & _) & S' & _).
    assert (X := found_fun _ _ _ _ F1 F2). injection X as _ _ _ _ _ _ _ _ X.
    assert (Y : sl_bytes sl = sl_bytes sl').
    { assert (Z1 : len (sl_bytes sl) = len (sl_bytes sl')).
      { assert (Q := f_equal len X). rewrite !len_app in Q. lia. }
      apply (f_equal (firstn (length (sl_bytes sl)))) in X.
      rewrite firstn_app_exact in X by auto. rewrite X. apply firstn_app_exact. unfold len in Z1. lia. }
    unfold cut. rewrite Y, <- (sl_bytes_len sl S), <- (sl_bytes_len sl' S'), Y. reflexivity.
  - intros (H & _) (_ & N). elim (N eq_refl _ H).
  - intros (_ & N) (H & _). elim (N eq_refl _ H).
Qed.
Lemma opened_w_fun a : forall p x y, opened_w W true a p x -> opened_w W true a p y -> visible x = visible y.
Proof.
  induction a as [name schema ss vs ms rs subs IH] using adesc_deep_ind. intros p x y.
  rewrite !opened_w_eq. intros (_ & H1 & H2 & H3 & H4 & H5) (_ & H1' & H2' & H3' & H4' & H5').
  destruct x as [y1 y2 y3 y4 y5], y as [z1 z2 z3 z4 z5]. simpl in *. f_equal.
  - eapply Forall2_fun; eauto. intros; eapply part_w_fun; eauto.
  - eapply Forall2_fun; eauto. intros; eapply part_w_fun; eauto.
  - eapply Forall2_fun; eauto. intros r i j _ (A1 & A2) (B1 & B2). f_equal; eapply part_w_fun; eauto.
  - eapply Forall2_fun; eauto. intros; eapply part_w_fun; eauto.
  - eapply Forall2_fun; eauto. rewrite Forall_forall in IH. intros s i j Hs A B.
    destruct i as [x|], j as [y|]; simpl in *; auto.
    + f_equal. eapply (IH s Hs); eauto.
    + destruct B as (_ & N). elim (N eq_refl x A).
    + destruct A as (_ & N). elim (N eq_refl y B).
Qed.
End Wider.
