(** Facts about opening archives. *)
From Verif Require Import Base BaseFacts Codec CodecSpec CodecFacts Structs StructsSpec StructsFacts Views ViewsSpec ViewsFacts.
From Verif Require Import Storage PathFacts StorageSpec StorageFacts StorageMore StorageUse Writers WritersSpec.
From Verif Require Import MultiViews MultiSpec Archives ArchiveSpec.
Local Open Scope list_scope.
Local Open Scope Z_scope.
Local Arguments firstn : simpl never.
Local Arguments skipn : simpl never.

(** * Induction over archive definitions *)
Lemma adesc_deep_ind (P : adesc -> Prop) :
  (forall name schema ss vs ms rs subs, Forall (fun s => P (snd (fst s))) subs -> P (mkArchive name schema ss vs ms rs subs)) ->
  forall a, P a.
Proof.
  intros H. fix IH 1. intros [name schema ss vs ms rs subs]. apply H.
  induction subs as [|[[n a] opt] subs IHs]; constructor; [apply IH|exact IHs].
Qed.

Definition sub_part (strict : bool) (p : place) (s : string * adesc * bool) (y : option archive) : Prop :=
  match y with
  | Some x' => opened strict (snd (fst s)) (sub_place p (fst (fst s))) x'
  | None => snd s = true /\ (strict = true -> forall x', ~ opened strict (snd (fst s)) (sub_place p (fst (fst s))) x')
  end.

Lemma opened_eq strict a p x : opened strict a p x <->
  (exists d, holds p (signature_name (ad_name a)) (ad_schema a) d) /\
  Forall2 (typed_part strict p) (ad_structs a) (ar_structs x) /\
  Forall2 (typed_part strict p) (ad_vectors a) (ar_vectors x) /\
  Forall2 (multi_part strict p) (ad_multis a) (ar_multis x) /\
  Forall2 (raw_part strict p) (ad_raws a) (ar_raws x) /\
  Forall2 (sub_part strict p) (ad_subs a) (ar_subs x).
Proof.
  destruct a as [name schema ss vs ms rs subs]. cbn [opened ad_name ad_schema ad_structs ad_vectors ad_multis ad_raws ad_subs].
  match goal with |- _ /\ _ /\ _ /\ _ /\ _ /\ ?G _ _ <-> _ => set (go := G) end.
  assert (H : forall l ys, go l ys <-> Forall2 (sub_part strict p) l ys).
  { induction l as [|[[n a] opt] l IH]; intros [|y ys]; simpl.
    - split; auto.
    - split; [contradiction|inversion 1].
    - split; [contradiction|inversion 1].
    - rewrite IH. split; [intros (A & B); constructor; auto|inversion 1; subst; auto]. }
  rewrite H. reflexivity.
Qed.

Lemma everywhere_eq Q a p : everywhere Q a p <->
  Forall (Q p) (part_names a) /\
  Forall (fun s => everywhere Q (snd (fst s)) (sub_place p (fst (fst s)))) (ad_subs a).
Proof.
  destruct a as [name schema ss vs ms rs subs]. cbn [everywhere ad_subs].
  match goal with |- _ /\ ?G _ <-> _ => set (go := G) end.
  assert (H : forall l, go l <-> Forall (fun s => everywhere Q (snd (fst s)) (sub_place p (fst (fst s)))) l).
  { induction l as [|[[n a] opt] l IH]; simpl; [split; auto|].
    rewrite IH. split; [intros (A & B); constructor; auto|inversion 1; subst; auto]. }
  rewrite H. reflexivity.
Qed.

(** * Open, unfolded *)
Definition open_sub b e (st : storage) (s : string * adesc * bool) : M (result (option archive) rs_error) :=
  check_part (snd s) (let! st' := subdir st (fst (fst s)) in open_archive b e (snd (fst s)) st').

Lemma open_eq b e a st w : open_archive b e a st w =
  (let? _ := read b e st (signature_name (ad_name a)) (ad_schema a) in
   let? ss := each (open_typed b e st) (ad_structs a) in
   let? vs := each (open_typed b e st) (ad_vectors a) in
   let? ms := each (open_multi b e st) (ad_multis a) in
   let? rs := each (open_raw b e st) (ad_raws a) in
   let? us := each (open_sub b e st) (ad_subs a) in
   mret (Ok (mkOpened ss vs ms rs us))) w.
Proof.
  destruct a as [name schema ss vs ms rs subs].
  cbn [open_archive ad_name ad_schema ad_structs ad_vectors ad_multis ad_raws ad_subs].
  match goal with |- _ = ?R => match goal with |- context [mtry _ (?G subs) _] => set (go := G) end end.
  assert (H : forall l w, go l w = each (open_sub b e st) l w).
  { induction l as [|[[n a] opt] l IH]; intros w0; [reflexivity|]. cbn [each]. unfold open_sub at 1. cbn [fst snd].
    unfold go at 1. fold go. unfold mtry, mbind.
    destruct (check_part opt _ w0) as [[[y|x]| | |] w1]; auto. rewrite IH. reflexivity. }
  unfold mtry, mbind.
  destruct (read _ _ _ _ _ w) as [[[d|x]| | |] w1]; auto.
  destruct (each (open_typed b e st) ss w1) as [[[y1|x]| | |] w2]; auto.
  destruct (each (open_typed b e st) vs w2) as [[[y2|x]| | |] w3]; auto.
  destruct (each (open_multi b e st) ms w3) as [[[y3|x]| | |] w4]; auto.
  destruct (each (open_raw b e st) rs w4) as [[[y4|x]| | |] w5]; auto.
  rewrite H. reflexivity.
Qed.

(** * Reading changes nothing but caches *)
Definition opening (w w' : world) : Prop :=
  calm w w' /\ w_files w' = w_files w /\ w_dirs w' = w_dirs w /\ (maps_ok w -> maps_ok w') /\
  (w_next w <= w_next w')%nat /\
  (forall id, (id < w_next w)%nat -> w_streams w' id = w_streams w id) /\
  (forall st n x, (st_id st < w_next w)%nat -> finds st w n x -> finds st w' n x).

Lemma opening_refl w : opening w w.
Proof. split; [apply calm_refl|]. repeat split; auto. Qed.
Lemma opening_trans w1 w2 w3 : opening w1 w2 -> opening w2 w3 -> opening w1 w3.
Proof.
  intros (A1 & A2 & A3 & A4 & A5 & A0 & A6) (B1 & B2 & B3 & B4 & B5 & B0 & B6).
  split; [eapply calm_trans; eauto|]. split; [congruence|]. split; [congruence|]. split; auto. split; [lia|].
  split; [intros; rewrite B0, A0; auto; lia|]. intros st n x H F. apply B6; [lia|auto].
Qed.
Lemma reads_opening P w w' : reads P w w' -> opening w w'.
Proof.
  intros (T & C & F & S & D & MO & Fd). split; auto. split; auto. split; auto. split; auto.
  destruct T as (_ & _ & _ & -> & _). split; auto. rewrite S. split; auto.
Qed.

(** The storage [st] in [w] gives what is at [p]. *)
Definition represents (st : storage) (w : world) (p : place) : Prop :=
  maps_ok w /\ (st_id st < w_next w)%nat /\ (forall n x, found p n x -> finds st w n x) /\
  match p with
  | PStorage st0 w0 => st = st0 /\ w_files w = w_files w0
  | PDisk base w0 => (exists id, st = FileStorage id base) /\ w_files w = w_files w0
  | PEmpty => exists id base, st = MemStorage id base
  end.

Lemma represents_opening st w w' p : opening w w' -> represents st w p -> represents st w' p.
Proof.
  intros (A1 & A2 & A3 & A4 & A5 & A0 & A6) (MO & I & F & X). split; auto. split; [lia|]. split; [auto|].
  destruct p; rewrite ?A2; auto.
Qed.

Lemma nupd_below {V} (f : nat -> V) v n id : (id < n)%nat -> nupd n v f id = f id.
Proof. intros H. apply nupd_other. lia. Qed.

Lemma mem_new_opening base w : opening w (snd (mem_new base w)).
Proof.
  unfold mem_new. cbn [snd]. split; [intros H; exact H|]. split; [reflexivity|]. split; [reflexivity|]. split; [auto|].
  split; [simpl; lia|]. split.
  - intros id H. simpl. apply nupd_below. auto.
  - intros [id b0|id b0] n x H F; simpl in *; [|auto]. rewrite !nupd_below by auto. auto.
Qed.

Lemma file_new_opening base w : opening w (snd (file_new base w)).
Proof.
  unfold file_new. cbn [snd]. split; [intros H; exact H|]. split; [reflexivity|]. split; [reflexivity|]. split.
  - intros MO id p l. simpl. unfold nupd. destruct (Nat.eqb id (w_next w)); [discriminate|apply MO].
  - split; [simpl; lia|]. split; [auto|].
    intros [id b0|id b0] n x H F; simpl in *; auto. rewrite nupd_below by auto. auto.
Qed.

Lemma subdir_represents st w p n o w' : represents st w p -> subdir st n w = (o, w') ->
  opening w w' /\ exists st', o = Ret st' /\ represents st' w' (sub_place p n).
Proof.
  intros (MO & I & F & X) S.
  assert (Hm : forall id base, st = MemStorage id base -> opening w w' /\ exists st', o = Ret st' /\ represents st' w' PEmpty).
  { intros id base ->. assert (O := mem_new_opening (path_join base n) w). cbn [subdir] in S.
    rewrite S in O. split; [exact O|]. unfold mem_new in S. injection S as <- <-.
    eexists. split; [reflexivity|]. split; [apply O; auto|]. split; [simpl; lia|]. split; [|eauto].
    intros m x ->. simpl. rewrite !nupd_same. reflexivity. }
  assert (Hf : forall id base w0, st = FileStorage id base -> w_files w = w_files w0 ->
    opening w w' /\ exists st', o = Ret st' /\ represents st' w' (PDisk (path_join base n) w0)).
  { intros id base w0 -> Fi. assert (O := file_new_opening (path_join base n) w). cbn [subdir] in S.
    rewrite S in O. split; [exact O|]. unfold file_new in S. injection S as <- <-.
    eexists. split; [reflexivity|]. split; [apply O; auto|]. split; [simpl; lia|]. split; [|eauto].
    intros m x ->. simpl. rewrite !nupd_same, Fi. reflexivity. }
  destruct p as [st0 w0|base w0|]; cbn [sub_place].
  - destruct X as (-> & Fi). destruct st0; eauto.
  - destruct X as ((id & E) & Fi). eauto.
  - destruct X as (id & base & E). eauto.
Qed.

(** * Computations that read at [p] *)
(** [Q strict y]: the result [y] is right; [T]: no header overflows. *)
Definition does {B} (st : storage) (p : place) (m : M (result B rs_error)) (b : build) (Q : bool -> B -> Prop) (T : Prop) : Prop :=
  forall w o w', represents st w p -> m w = (o, w') ->
  opening w w' /\
  match o with
  | Ret (Ok y) => forall strict, (strict = true -> w_faults w = []) -> Q strict y
  | Ret (Er _) => w_faults w = [] -> forall y, ~ Q true y
  | Panic => b = Debug /\ ~ T
  | UB => False
  | Crash => w_faults w <> []
  end.

Lemma found_fun p n x y : found p n x -> found p n y -> x = y.
Proof. destruct p; simpl; [apply finds_fun|congruence|congruence]. Qed.

Lemma represents_found st w p n x : represents st w p -> (exists y, found p n y) -> finds st w n x -> found p n x.
Proof.
  intros (_ & _ & F & _) (y & Hy) Hx. rewrite (finds_fun _ _ _ _ _ Hx (F _ _ Hy)). auto.
Qed.

Lemma verdict_holds p n schema c sc d : found p n (Some c) -> found p (schema_name n) (Some sc) ->
  verdict n schema c sc (Ok d) -> holds p n schema d.
Proof. intros F1 F2 V. inversion V; subst. exists (framed d pad), pad. repeat split; auto. Qed.

Lemma holds_verdict p n schema c sc d r : stored_ok c -> found p n (Some c) -> found p (schema_name n) (Some sc) ->
  verdict n schema c sc r -> holds p n schema d -> r = Ok d.
Proof.
  intros S F1 F2 V (c' & pad & F1' & E & L & F2' & U).
  assert (X := found_fun _ _ _ _ F1 F1'). assert (Y := found_fun _ _ _ _ F2 F2').
  injection X as ->. injection Y as ->. apply (verdict_ok_iff _ _ _ _ _ S V d). eauto.
Qed.

Lemma does_read b e st p n schema : readable p n ->
  does st p (read b e st n schema) b
    (fun strict sl => holds p n schema (sl_bytes sl) /\ slice_ok sl /\ len (sl_mem sl) = sl_len sl + 8) (tame p n).
Proof.
  intros (X1 & X2 & S) w o w' R E. assert (MO := R). destruct MO as (MO & _).
  destruct (read_cases _ _ _ _ _ _ _ _ MO E) as (Rd & X). split; [eapply reads_opening; eauto|].
  assert (Fw : forall m x, found p m x -> finds st w m x) by apply R.
  destruct X as [(k & -> & X)|[(-> & _ & X)|[(-> & X)|(c & sc & F1 & F2 & ->)]]].
  - intros Hf sl ((c & pad & F1 & _ & _ & F2 & _) & _).
    destruct X as [(_ & ?)|[X|X]]; [contradiction|eapply X; eauto|eapply X; eauto].
  - exact X.
  - destruct X1 as (x1 & F1). destruct X2 as (x2 & F2). destruct X as [X|X]; eapply X; eauto.
  - apply (represents_found _ _ _ _ _ R X1) in F1. apply (represents_found _ _ _ _ _ R X2) in F2.
    destruct (check_resource_cases b e n schema c sc (S c F1)) as [(r & E1 & V & Sl)|(Hb & L & H & E1)]; unfold checked; rewrite E1.
    + destruct r as [sl|x].
      * intros strict _. split; [eapply verdict_holds; eauto|]. apply Sl; auto.
      * intros _ sl (H & _). assert (Q := holds_verdict _ _ _ _ _ _ _ (S c F1) F1 F2 V H). discriminate.
    + split; auto. intros T. specialize (T c F1). lia.
Qed.

Lemma does_check {B} st p b opt (m : M (result B rs_error)) Q T : does st p m b Q T ->
  does st p (check_part opt m) b
    (fun strict z => match z with Some y => Q strict y | None => opt = true /\ (strict = true -> forall y, ~ Q true y) end) T.
Proof.
  intros D w o w' R E. unfold check_part, mbind in E. destruct (m w) as [o1 w1] eqn:E1.
  destruct (D _ _ _ R E1) as (O & X). destruct o1 as [[y|x]| | |]; unfold mret in E; injection E as <- <-; (split; [exact O|]); auto.
  destruct opt.
  - intros strict Hs. split; auto.
  - intros Hf [y|].
    + apply X; auto.
    + intros (? & _). discriminate.
Qed.

Lemma does_each {A B} st p b (f : A -> M (result B rs_error)) (R : bool -> A -> B -> Prop) (T : A -> Prop) l :
  (forall x, In x l -> does st p (f x) b (fun s y => R s x y) (T x)) ->
  does st p (each f l) b (fun s ys => Forall2 (R s) l ys) (Forall T l).
Proof.
  induction l as [|x l IH]; intros H w o w' Re E; cbn [each] in E.
  - unfold mret in E. injection E as <- <-. split; [apply opening_refl|]. constructor.
  - unfold mtry, mbind in E. destruct (f x w) as [o1 w1] eqn:E1.
    destruct (H x (or_introl eq_refl) _ _ _ Re E1) as (O1 & X1).
    assert (C1 : calm w w1) by apply O1. assert (Re1 := represents_opening _ _ _ _ O1 Re).
    destruct o1 as [[y|k]| | |].
    + destruct (each f l w1) as [o2 w2] eqn:E2.
      destruct (IH (fun z Hz => H z (or_intror Hz)) _ _ _ Re1 E2) as (O2 & X2).
      assert (O := opening_trans _ _ _ O1 O2).
      destruct o2 as [[ys|k]| | |]; unfold mret in E; injection E as <- <-; (split; [exact O|]).
      * intros s Hs. constructor; auto.
      * intros Hf [|z zs] Hz; [inversion Hz|]. inversion Hz; subst. apply (X2 (C1 Hf) zs). auto.
      * destruct X2 as (? & N). split; auto. intros HT. inversion HT; auto.
      * exact X2.
      * intros Hf. apply X2. auto.
    + unfold mret in E. injection E as <- <-. split; [exact O1|]. intros Hf [|z zs] Hz; [inversion Hz|].
      inversion Hz; subst. apply (X1 Hf z). auto.
    + injection E as <- <-. split; [exact O1|]. destruct X1 as (? & N). split; auto. intros HT. inversion HT; auto.
    + injection E as <- <-. split; [exact O1|]. auto.
    + injection E as <- <-. split; [exact O1|]. auto.
Qed.

Lemma does_weaken {B} st p b (m : M (result B rs_error)) (Q Q' : bool -> B -> Prop) (T T' : Prop) : does st p m b Q T ->
  (forall s y, Q s y <-> Q' s y) -> (T' -> T) -> does st p m b Q' T'.
Proof.
  intros D HQ HT w o w' R E. destruct (D _ _ _ R E) as (O & X). split; [exact O|]. destruct o as [[y|k]| | |].
  - intros s Hs. apply HQ. auto.
  - intros Hf y Hy. apply (X Hf y). apply HQ. auto.
  - destruct X as (? & X). split; auto.
  - auto.
  - auto.
Qed.

Lemma holds_slice p n schema d : readable p n -> holds p n schema d ->
  exists sl, sl_bytes sl = d /\ slice_ok sl /\ len (sl_mem sl) = sl_len sl + 8.
Proof.
  intros (_ & _ & S) (c & pad & F & -> & L & _). specialize (S _ F). unfold framed in S. destruct S as (B & Lc).
  apply Forall_app in B. destruct B as (_ & B). rewrite !len_app, len_le_bytes in Lc.
  assert (0 <= len d) by apply len_nonneg.
  exists (mkSlice (d ++ pad) (len d)). unfold sl_bytes, slice_ok. cbn [sl_mem sl_len].
  rewrite firstn_app_exact by (unfold len; rewrite Nat2Z.id; reflexivity). rewrite len_app. repeat split; auto; lia.
Qed.

Lemma does_part b e st p opt n schema : readable p n ->
  does st p (check_part opt (read b e st n schema)) b (fun s y => part s p opt n schema y) (tame p n).
Proof.
  intros Rd. eapply does_weaken; [apply does_check, does_read; exact Rd| |auto].
  intros s [sl|]; simpl; [reflexivity|]. split; intros (A & B); (split; [exact A|]); intros Hs.
  - intros d Hd. destruct (holds_slice _ _ _ _ Rd Hd) as (sl & <- & S). apply (B Hs sl). auto.
  - intros sl (H & _). apply (B Hs _ H).
Qed.

Lemma does_try {A B} st p b (m : M (result A rs_error)) (k : A -> M (result B rs_error))
    (Q1 : bool -> A -> Prop) (Q2 : A -> bool -> B -> Prop) (T1 T2 : Prop) :
  does st p m b Q1 T1 -> (forall y, does st p (k y) b (Q2 y) T2) ->
  (forall y y' z, Q2 y' true z -> exists z', Q2 y true z') ->
  does st p (mtry (fun err => err) m k) b (fun s z => exists y, Q1 s y /\ Q2 y s z) (T1 /\ T2).
Proof.
  intros D1 D2 Ind w o w' R E. unfold mtry, mbind in E. destruct (m w) as [o1 w1] eqn:E1.
  destruct (D1 _ _ _ R E1) as (O1 & X1). assert (C1 : calm w w1) by apply O1.
  assert (R1 := represents_opening _ _ _ _ O1 R).
  destruct o1 as [[y|x]| | |].
  - destruct (D2 y _ _ _ R1 E) as (O2 & X2). split; [eapply opening_trans; eauto|].
    destruct o as [[z|x]| | |].
    + intros s Hs. exists y. split; auto.
    + intros Hf z (y' & _ & Hz). destruct (Ind y y' z Hz) as (z' & Hz'). apply (X2 (C1 Hf) z' Hz').
    + destruct X2 as (? & X2). split; auto. tauto.
    + exact X2.
    + auto.
  - unfold mret in E. injection E as <- <-. split; [exact O1|]. intros Hf z (y & Hy & _). apply (X1 Hf y Hy).
  - injection E as <- <-. split; [exact O1|]. destruct X1. split; auto. tauto.
  - injection E as <- <-. split; [exact O1|]. exact X1.
  - injection E as <- <-. split; [exact O1|]. exact X1.
Qed.

Lemma does_ret {B} st p b (y : B) : does st p (mret (Ok y)) b (fun _ z => z = y) True.
Proof.
  intros w o w' R E. unfold mret in E. injection E as <- <-. split; [apply opening_refl|]. auto.
Qed.

Lemma does_multi b e st p r : readable p (mr_index r) -> readable p (mr_name r) ->
  does st p (open_multi b e st r) b (fun s y => multi_part s p r y) (tame p (mr_index r) /\ tame p (mr_name r)).
Proof.
  intros R1 R2. unfold open_multi.
  eapply does_weaken with (T := tame p (mr_index r) /\ tame p (mr_name r) /\ True); [|shelve|tauto].
  apply does_try; [apply does_part; exact R1| |shelve].
  intros i. apply does_try; [apply does_part; exact R2| |shelve]. intros d. apply (does_ret st p b (i, d)).
  Unshelve.
  - intros s [i d]. unfold multi_part. simpl. split.
    + intros (i' & H1 & d' & H2 & [= -> ->]). auto.
    + intros (H1 & H2). eauto 6.
  - intros y y' z (d & H1 & H2). eauto.
  - intros y y' z Hz. eauto.
Qed.

Lemma does_subdir {B} st p b n (k : storage -> M (result B rs_error)) Q T :
  (forall st', does st' (sub_place p n) (k st') b Q T) ->
  does st p (let! st' := subdir st n in k st') b Q T.
Proof.
  intros D w o w' R E. unfold mbind in E. destruct (subdir st n w) as [o1 w1] eqn:E1.
  destruct (subdir_represents _ _ _ _ _ _ R E1) as (O1 & st' & -> & R').
  destruct (D st' _ _ _ R' E) as (O2 & X). split; [eapply opening_trans; eauto|].
  assert (C1 : calm w w1) by apply O1.
  destruct o as [[y|x]| | |]; auto.
Qed.

Lemma Forall_flat_map2 {A B} (f g : A -> B) (P : B -> Prop) l :
  Forall P (flat_map (fun r => [f r; g r]) l) <-> Forall (fun r => P (f r) /\ P (g r)) l.
Proof.
  induction l as [|x l IH]; simpl; [split; auto|]. split; intros H.
  - inversion H as [|? ? H1 H2]; subst. inversion H2; subst. constructor; [auto|apply IH; auto].
  - inversion H as [|? ? H1 H2]; subst. constructor; [apply H1|]. constructor; [apply H1|apply IH; auto].
Qed.

Lemma part_names_all (P : string -> Prop) a : Forall P (part_names a) <->
  P (signature_name (ad_name a)) /\ Forall (fun r => P (tr_name r)) (ad_structs a) /\
  Forall (fun r => P (tr_name r)) (ad_vectors a) /\
  Forall (fun r => P (mr_index r) /\ P (mr_name r)) (ad_multis a) /\
  Forall (fun r => P (rr_name r)) (ad_raws a).
Proof.
  unfold part_names. rewrite Forall_cons_iff, !Forall_app, !Forall_map, Forall_flat_map2. tauto.
Qed.

(** * Open *)
Lemma does_open b e a : forall st p, everywhere readable a p ->
  does st p (open_archive b e a st) b (fun s x => opened s a p x) (everywhere tame a p).
Proof.
  induction a as [name schema ss vs ms rs subs IH] using adesc_deep_ind.
  intros st p Rd. apply everywhere_eq in Rd. destruct Rd as (Rd & Rs).
  apply part_names_all in Rd. destruct Rd as (R0 & R1 & R2 & R3 & R4).
  rewrite Forall_forall in R1, R2, R3, R4, Rs, IH.
  set (a := mkArchive name schema ss vs ms rs subs) in *.
  intros w o w' Re E. rewrite open_eq in E.
  revert w o w' Re E.
  match goal with |- forall w o w', _ -> ?m w = _ -> _ => change (does st p m b (fun s x => opened s a p x) (everywhere tame a p)) end.
  eapply does_weaken with (T := tame p (signature_name (ad_name a)) /\
    Forall (fun r => tame p (tr_name r)) (ad_structs a) /\
    Forall (fun r => tame p (tr_name r)) (ad_vectors a) /\
    Forall (fun r => tame p (mr_index r) /\ tame p (mr_name r)) (ad_multis a) /\
    Forall (fun r => tame p (rr_name r)) (ad_raws a) /\
    Forall (fun s => everywhere tame (snd (fst s)) (sub_place p (fst (fst s)))) (ad_subs a) /\ True).
  - apply does_try; [apply does_read; exact R0| |shelve]. intros sl0.
    apply does_try; [apply does_each with (R := fun s => typed_part s p); intros r Hr; apply does_part; apply R1, Hr| |shelve]. intros ys1.
    apply does_try; [apply does_each with (R := fun s => typed_part s p); intros r Hr; apply does_part; apply R2, Hr| |shelve]. intros ys2.
    apply does_try; [apply does_each with (R := fun s => multi_part s p); intros r Hr; apply does_multi; apply R3, Hr| |shelve]. intros ys3.
    apply does_try; [apply does_each with (R := fun s => raw_part s p); intros r Hr; apply does_part; apply R4, Hr| |shelve]. intros ys4.
    apply does_try; [| |shelve].
    + apply does_each with (R := fun s => sub_part s p)
        (T := fun s => everywhere tame (snd (fst s)) (sub_place p (fst (fst s)))).
      intros r Hr. unfold open_sub. eapply does_weaken; [apply does_check, does_subdir; intros st'; apply (IH r Hr); apply Rs, Hr| |auto].
      intros s [x|]; simpl; [reflexivity|]. split; intros (A & B); (split; [exact A|]); intros Hs x; subst s; apply B; auto.
    + intros ys5. apply (does_ret st p b (mkOpened ys1 ys2 ys3 ys4 ys5)).
  - intros s x. rewrite opened_eq. split.
    + intros (sl0 & (H0 & _) & y1 & H1 & y2 & H2 & y3 & H3 & y4 & H4 & y5 & H5 & ->). simpl. eauto 10.
    + intros ((d & H0) & H1 & H2 & H3 & H4 & H5). destruct x as [y1 y2 y3 y4 y5].
      destruct (holds_slice _ _ _ _ R0 H0) as (sl & <- & Sl). exists sl. split; [auto|].
      exists y1. split; [exact H1|]. exists y2. split; [exact H2|]. exists y3. split; [exact H3|].
      exists y4. split; [exact H4|]. exists y5. split; [exact H5|reflexivity].
  - rewrite everywhere_eq, part_names_all. tauto.
  Unshelve.
  all: intros y y' z Hz; cbn beta in *; repeat match goal with H : exists _, _ |- _ => destruct H | H : _ /\ _ |- _ => destruct H end; eauto 12.
Qed.
(** * Deciding *)
Lemma holds_dec p n schema : readable p n -> sound p n schema \/ forall d, ~ holds p n schema d.
Proof.
  intros ((x & F1) & (y & F2) & S).
  destruct x as [c|].
  2:{ right. intros d (c & pad & F & _). assert (X := found_fun _ _ _ _ F1 F). discriminate. }
  destruct y as [sc|].
  2:{ right. intros d (c0 & pad & _ & _ & _ & F & _). assert (X := found_fun _ _ _ _ F2 F). discriminate. }
  destruct (check_resource_cases Release LE n schema c sc (S c F1)) as [(r & E1 & V & Sl)|(Hb & _)]; [|discriminate].
  destruct r as [sl|x].
  - left. exists (sl_bytes sl). eapply verdict_holds; eauto.
  - right. intros d Hd. assert (X := holds_verdict _ _ _ _ _ _ _ (S c F1) F1 F2 V Hd). discriminate.
Qed.

Definition sub_checks (p : place) (s : string * adesc * bool) : Prop :=
  snd s = false -> checks (snd (fst s)) (sub_place p (fst (fst s))).
Lemma checks_eq a p : checks a p <->
  sound p (signature_name (ad_name a)) (ad_schema a) /\
  (forall r, In r (ad_structs a ++ ad_vectors a) -> tr_opt r = false -> sound p (tr_name r) (tr_schema r)) /\
  (forall r, In r (ad_multis a) -> mr_opt r = false ->
     sound p (mr_index r) (index_schema (mr_schema r)) /\ sound p (mr_name r) (mr_schema r)) /\
  (forall r, In r (ad_raws a) -> rr_opt r = false -> sound p (rr_name r) (rr_schema r)) /\
  Forall (sub_checks p) (ad_subs a).
Proof.
  destruct a as [name schema ss vs ms rs subs]. cbn [checks ad_name ad_schema ad_structs ad_vectors ad_multis ad_raws ad_subs].
  match goal with |- _ /\ _ /\ _ /\ _ /\ ?G _ <-> _ => set (go := G) end.
  assert (H : forall l, go l <-> Forall (sub_checks p) l).
  { induction l as [|[[n a] opt] l IH]; simpl; [split; auto|].
    rewrite IH. split; [intros (A & B); constructor; auto|inversion 1; subst; auto]. }
  rewrite H. reflexivity.
Qed.

Lemma Forall2_choose {A B} (R : A -> B -> Prop) l : (forall x, In x l -> exists y, R x y) -> exists ys, Forall2 R l ys.
Proof.
  induction l as [|x l IH]; intros H; [exists []; constructor|].
  destruct (H x (or_introl eq_refl)) as (y & Hy). destruct IH as (ys & Hys); [intros z Hz; apply H; right; auto|].
  exists (y :: ys). constructor; auto.
Qed.
Lemma Forall2_In {A B} (R : A -> B -> Prop) l ys x : Forall2 R l ys -> In x l -> exists y, In y ys /\ R x y.
Proof.
  induction 1 as [|a b l ys Hr HF IH]; [intros []|]. intros [->|Hx]; [exists b; split; [left|]; auto|].
  destruct (IH Hx) as (y & ? & ?). exists y. split; [right|]; auto.
Qed.

Lemma part_choose p opt n schema : readable p n -> (opt = false -> sound p n schema) -> exists y, part true p opt n schema y.
Proof.
  intros Rd H. destruct (holds_dec p n schema Rd) as [(d & Hd)|N].
  - destruct (holds_slice _ _ _ _ Rd Hd) as (sl & <- & X). exists (Some sl). split; auto.
  - exists None. split; [|auto]. destruct opt; auto. destruct (H eq_refl) as (d & Hd). elim (N d Hd).
Qed.
Lemma part_sound strict p opt n schema y : part strict p opt n schema y -> opt = false -> sound p n schema.
Proof. destruct y as [sl|]; simpl; [intros (H & _) _; eexists; eauto|intros (-> & _); discriminate]. Qed.

Lemma opened_checks strict a : forall p x, opened strict a p x -> checks a p.
Proof.
  induction a as [name schema ss vs ms rs subs IH] using adesc_deep_ind. intros p x.
  rewrite opened_eq, checks_eq. intros (H0 & H1 & H2 & H3 & H4 & H5). split; [exact H0|].
  split; [|split; [|split]].
  - intros r Hr Ho. apply in_app_or in Hr. destruct Hr as [Hr|Hr].
    + destruct (Forall2_In _ _ _ _ H1 Hr) as (y & _ & Hy). eapply part_sound; eauto.
    + destruct (Forall2_In _ _ _ _ H2 Hr) as (y & _ & Hy). eapply part_sound; eauto.
  - intros r Hr Ho. destruct (Forall2_In _ _ _ _ H3 Hr) as (y & _ & Hy & Hy'). split; eapply part_sound; eauto.
  - intros r Hr Ho. destruct (Forall2_In _ _ _ _ H4 Hr) as (y & _ & Hy). eapply part_sound; eauto.
  - rewrite Forall_forall in *. cbn [ad_subs] in *. intros s Hs Ho. destruct (Forall2_In _ _ _ _ H5 Hs) as (y & _ & Hy).
    destruct y as [x'|]; [|destruct Hy as (Hy & _); congruence]. apply (IH s Hs _ x' Hy).
Qed.

Lemma opened_dec a : forall p, everywhere readable a p ->
  (checks a p -> exists x, opened true a p x) /\ ((exists x, opened true a p x) \/ forall x, ~ opened true a p x).
Proof.
  induction a as [name schema ss vs ms rs subs IH] using adesc_deep_ind. intros p Rd.
  set (a := mkArchive name schema ss vs ms rs subs) in *.
  destruct (proj1 (everywhere_eq _ _ _) Rd) as (Rp & Rs). apply part_names_all in Rp. destruct Rp as (R0 & R1 & R2 & R3 & R4).
  rewrite Forall_forall in R1, R2, R3, R4, Rs, IH.
  assert (C : checks a p -> exists x, opened true a p x).
  { rewrite checks_eq. intros (H0 & H1 & H2 & H3 & H4).
    destruct (Forall2_choose (typed_part true p) (ad_structs a)) as (y1 & Y1).
    { intros r Hr. apply part_choose; [apply R1; auto|apply H1; apply in_or_app; auto]. }
    destruct (Forall2_choose (typed_part true p) (ad_vectors a)) as (y2 & Y2).
    { intros r Hr. apply part_choose; [apply R2; auto|apply H1; apply in_or_app; auto]. }
    destruct (Forall2_choose (multi_part true p) (ad_multis a)) as (y3 & Y3).
    { intros r Hr. destruct (R3 r Hr) as (Ra & Rb). specialize (H2 r Hr).
      destruct (part_choose p (mr_opt r) (mr_index r) (index_schema (mr_schema r)) Ra (fun h => proj1 (H2 h))) as (i & Hi).
      destruct (part_choose p (mr_opt r) (mr_name r) (mr_schema r) Rb (fun h => proj2 (H2 h))) as (d & Hd).
      exists (i, d). split; auto. }
    destruct (Forall2_choose (raw_part true p) (ad_raws a)) as (y4 & Y4).
    { intros r Hr. apply part_choose; [apply R4; auto|apply H3; auto]. }
    destruct (Forall2_choose (sub_part true p) (ad_subs a)) as (y5 & Y5).
    { intros s Hs. rewrite Forall_forall in H4. specialize (H4 s Hs). destruct (IH s Hs _ (Rs s Hs)) as (I1 & I2).
      destruct I2 as [(x & Hx)|N]; [exists (Some x); exact Hx|]. exists None. split; [|auto].
      destruct (snd s) eqn:E; auto. destruct (I1 (H4 E)) as (x & Hx). elim (N x Hx). }
    exists (mkOpened y1 y2 y3 y4 y5). rewrite opened_eq. auto 10. }
  split; [exact C|].
  assert (Dc : checks a p \/ ~ checks a p).
  { rewrite checks_eq.
    assert (All : forall {A} (l : list A) (P : A -> Prop), (forall x, In x l -> P x \/ ~ P x) ->
      (forall x, In x l -> P x) \/ ~ (forall x, In x l -> P x)).
    { induction l as [|z l IHl]; intros P HP; [left; intros ? []|].
      destruct (HP z (or_introl eq_refl)) as [Hz|Hz]; [|right; intros X; apply Hz, X; left; auto].
      destruct (IHl P (fun y Hy => HP y (or_intror Hy))) as [Hl|Hl].
      - left. intros y [<-|Hy]; auto.
      - right. intros X. apply Hl. intros y Hy. apply X. right. auto. }
    assert (Sd : forall n sc, readable p n -> sound p n sc \/ ~ sound p n sc).
    { intros n sc Hr. destruct (holds_dec p n sc Hr) as [X|X]; auto. right. intros (d & Hd). elim (X d Hd). }
    assert (Im : forall (o : bool) (P : Prop), P \/ ~ P -> (o = false -> P) \/ ~ (o = false -> P)).
    { intros [] P [X|X]; auto; try (left; discriminate). }
    assert (An : forall P Q : Prop, P \/ ~ P -> Q \/ ~ Q -> (P /\ Q) \/ ~ (P /\ Q)) by tauto.
    apply An; [apply Sd; exact R0|]. apply An; [|apply An; [|apply An]].
    - apply All. intros r Hr. apply Im, Sd. apply in_app_or in Hr. destruct Hr; [apply R1|apply R2]; auto.
    - apply All. intros r Hr. apply Im, An; apply Sd; apply R3; auto.
    - apply All. intros r Hr. apply Im, Sd, R4; auto.
    - destruct (All _ (ad_subs a) (sub_checks p)) as [X|X].
      + intros s Hs. apply Im. destruct (IH s Hs _ (Rs s Hs)) as (I1 & I2). destruct I2 as [(x & Hx)|N].
        * left. eapply opened_checks; eauto.
        * right. intros X. destruct (I1 X) as (x & Hx). elim (N x Hx).
      + left. apply Forall_forall. exact X.
      + right. rewrite Forall_forall. exact X. }
  destruct Dc as [Dc|Dc]; [left; auto|]. right. intros x Hx. apply Dc. eapply opened_checks; eauto.
Qed.

(** * One result *)
Lemma part_fun p opt n schema y y' : part true p opt n schema y -> part true p opt n schema y' ->
  option_map cut y = option_map cut y'.
Proof.
  destruct y as [sl|], y' as [sl'|]; simpl; auto.
  - intros ((c & pad & F1 & -> & L1 & _) & (S & _) & _) ((c' & pad' & F2 & E & L2 & _) & (S' & _) & _).
    assert (X := found_fun _ _ _ _ F1 F2). injection X as X. rewrite E in X.
    assert (Y : sl_bytes sl = sl_bytes sl').
    { unfold framed in X. assert (Z1 : len (sl_bytes sl) = len (sl_bytes sl')).
      { assert (Q := f_equal len X). rewrite !len_app, !len_le_bytes in Q. lia. }
      rewrite Z1 in X. apply app_inv_head in X.
      apply (f_equal (firstn (length (sl_bytes sl)))) in X.
      rewrite firstn_app_exact in X by auto. rewrite X. apply firstn_app_exact. unfold len in Z1. lia. }
    unfold cut. rewrite Y. replace (sl_len sl) with (sl_len sl'); [reflexivity|].
    assert (Q := f_equal len Y). unfold sl_bytes in Q. rewrite !len_firstn in Q by lia. lia.
  - intros (H & _) (_ & N). elim (N eq_refl _ H).
  - intros (_ & N) (H & _). elim (N eq_refl _ H).
Qed.

Lemma Forall2_fun {A B C} (R : A -> B -> Prop) (f : B -> C) l y y' :
  (forall x a b, In x l -> R x a -> R x b -> f a = f b) -> Forall2 R l y -> Forall2 R l y' -> map f y = map f y'.
Proof.
  intros H F. revert y'. induction F as [|x a l y Hx F IH]; intros y' F'; inversion F'; subst; [reflexivity|].
  simpl. f_equal; [eapply H; eauto; left; auto|]. apply IH; auto. intros z c d Hz. apply H. right. auto.
Qed.

Lemma opened_fun a : forall p x y, opened true a p x -> opened true a p y -> visible x = visible y.
Proof.
  induction a as [name schema ss vs ms rs subs IH] using adesc_deep_ind. intros p x y.
  rewrite !opened_eq. intros (_ & H1 & H2 & H3 & H4 & H5) (_ & H1' & H2' & H3' & H4' & H5').
  destruct x as [y1 y2 y3 y4 y5], y as [z1 z2 z3 z4 z5]. simpl in *. f_equal.
  - eapply Forall2_fun; eauto. intros; eapply part_fun; eauto.
  - eapply Forall2_fun; eauto. intros; eapply part_fun; eauto.
  - eapply Forall2_fun; eauto. intros r i j _ (A1 & A2) (B1 & B2). f_equal; eapply part_fun; eauto.
  - eapply Forall2_fun; eauto. intros; eapply part_fun; eauto.
  - eapply Forall2_fun; eauto. rewrite Forall_forall in IH. intros s i j Hs A B.
    destruct i as [x|], j as [y|]; simpl in *; auto.
    + f_equal. eapply (IH s Hs); eauto.
    + destruct B as (_ & N). elim (N eq_refl x A).
    + destruct A as (_ & N). elim (N eq_refl y B).
Qed.

(** * Opening a storage *)
Lemma represents_self st w : maps_ok w -> (st_id st < w_next w)%nat -> represents st w (PStorage st w).
Proof. intros MO H. split; [exact MO|]. split; [exact H|]. split; [auto|]. split; reflexivity. Qed.

Lemma open_exact_at b e a st w p : w_faults w = [] -> represents st w p -> everywhere readable a p ->
  (b = Release \/ everywhere tame a p) ->
  exists r w', open_archive b e a st w = (Ret r, w') /\
    ((exists x, r = Ok x) <-> checks a p) /\ (forall x, r = Ok x -> opened true a p x).
Proof.
  intros Hf Re Rd T. destruct (open_archive b e a st w) as [o w'] eqn:E.
  destruct (does_open b e a st p Rd w o w' Re E) as (_ & X).
  destruct o as [r| | |].
  - exists r, w'. split; [reflexivity|]. destruct r as [x|x].
    + assert (H : opened true a p x) by (apply X; auto). split.
      * split; [intros _; eapply opened_checks; eauto|eauto].
      * intros y [= <-]. exact H.
    + split; [|discriminate]. split; [intros (y & ?); discriminate|].
      intros C. destruct (opened_dec a p Rd) as (Cx & _). destruct (Cx C) as (y & Hy). elim (X Hf y Hy).
  - destruct X as (-> & N). destruct T as [T|T]; [discriminate|contradiction].
  - contradiction.
  - contradiction.
Qed.

Lemma open_exact b e a st w : let p := PStorage st w in
  w_faults w = [] -> maps_ok w -> (st_id st < w_next w)%nat -> everywhere readable a p ->
  (b = Release \/ everywhere tame a p) ->
  exists r w', open_archive b e a st w = (Ret r, w') /\
    ((exists x, r = Ok x) <-> checks a p) /\ (forall x, r = Ok x -> opened true a p x).
Proof. intros p Hf MO Hi Rd T. apply open_exact_at; auto. apply represents_self; auto. Qed.

Lemma open_sound b e a st w o w' : let p := PStorage st w in
  maps_ok w -> (st_id st < w_next w)%nat -> everywhere readable a p ->
  open_archive b e a st w = (o, w') ->
  w_files w' = w_files w /\ w_dirs w' = w_dirs w /\
  (forall id, (id < w_next w)%nat -> w_streams w' id = w_streams w id) /\
  o <> UB /\ (forall x, o = Ret (Ok x) -> checks a p /\ opened false a p x).
Proof.
  intros p MO Hi Rd E.
  destruct (does_open b e a st p Rd w o w' (represents_self st w MO Hi) E) as ((_ & F & D & _ & _ & S & _) & X).
  split; [exact F|]. split; [exact D|]. split; [exact S|]. split; [intros ->; exact X|].
  intros x ->. assert (H : opened false a p x) by (apply X; discriminate). split; [eapply opened_checks; eauto|exact H].
Qed.

(** * Opening a directory in a new process *)
Lemma readable_disk base w n : disk_ok w -> readable (PDisk base w) n.
Proof.
  intros D. split; [simpl; eauto|]. split; [simpl; eauto|]. intros c H. simpl in H.
  destruct (w_files w (key_of (path_join base n))) as [[|x l]|] eqn:E; [discriminate| |discriminate].
  apply (D (key_of (path_join base n))). congruence.
Qed.
Lemma everywhere_disk (Q : place -> string -> Prop) a : forall base w, (forall base' n, Q (PDisk base' w) n) -> everywhere Q a (PDisk base w).
Proof.
  induction a as [name schema ss vs ms rs subs IH] using adesc_deep_ind. intros base w H. apply everywhere_eq. split.
  - apply Forall_forall. intros n _. apply H.
  - cbn [ad_subs]. rewrite Forall_forall in *. intros s Hs. apply (IH s Hs). auto.
Qed.
Lemma represents_disk base w : represents (FileStorage 0 base) (reader_world w) (PDisk base w).
Proof.
  split; [apply reader_world_ok|]. split; [simpl; lia|]. split; [|eauto].
  intros n x ->. assert (F := fresh_finds base w n). unfold res_key, res_path in F. unfold on_file in F. cbn [st_base] in F.
  destruct (w_files w (key_of (path_join base n))) as [[|]|]; exact F.
Qed.

Lemma fresh_open_exact b e a base w : let p := PDisk base w in
  disk_ok w -> (b = Release \/ everywhere tame a p) ->
  exists r, fresh_open b e a base w = Ret r /\
    ((exists x, r = Ok x) <-> checks a p) /\ (forall x, r = Ok x -> opened true a p x).
Proof.
  intros p D T.
  change (fresh_open b e a base w) with (fst (open_archive b e a (FileStorage 0 base) (reader_world w))).
  destruct (open_exact_at b e a (FileStorage 0 base) (reader_world w) p) as (r & w' & -> & X); auto.
  - apply represents_disk.
  - apply everywhere_disk. intros. apply readable_disk. auto.
  - exists r. split; [reflexivity|exact X].
Qed.

(** * Struct getters *)
Lemma nth_error_Forall2 {A B} (R : A -> B -> Prop) l ys k x d : Forall2 R l ys -> nth_error l k = Some x -> R x (nth k ys d).
Proof.
  intros H. revert k. induction H as [|a b l ys Hr H IH]; intros [|k]; simpl; try discriminate; [intros [= <-]; auto|apply IH].
Qed.

Lemma struct_getter b e strict a p x k r m : opened strict a p x -> nth_error (ad_structs a) k = Some r ->
  get_struct x k = Some m -> wf_struct (tr_struct r) ->
  exists d, holds p (tr_name r) (tr_schema r) d /\ firstn (length d) m = d /\ len m = len d + 8 /\
    (s_size (tr_struct r) <= len d ->
      shows b e (tr_struct r) d (decode (tr_struct r) d) /\ shows b e (tr_struct r) m (decode (tr_struct r) d)).
Proof.
  rewrite opened_eq. intros (_ & H & _) Hk G Wf. assert (T := nth_error_Forall2 _ _ _ _ _ None H Hk).
  unfold get_struct in G. destruct (nth k (ar_structs x) None) as [sl|]; [|discriminate].
  injection G as <-. destruct T as (Hd & (L & _ & B) & L8). exists (sl_bytes sl).
  split; [exact Hd|]. unfold sl_bytes in *.
  assert (Ln : len (firstn (Z.to_nat (sl_len sl)) (sl_mem sl)) = sl_len sl) by (rewrite len_firstn; lia).
  split; [|split; [lia|]].
  - replace (length (firstn (Z.to_nat (sl_len sl)) (sl_mem sl))) with (Z.to_nat (sl_len sl)); [reflexivity|].
    unfold len in Ln. lia.
  - rewrite Ln. intros S. assert (Bd : bytes_ok (firstn (Z.to_nat (sl_len sl)) (sl_mem sl))) by (apply bytes_ok_firstn; auto).
    assert (X : shows b e (tr_struct r) (firstn (Z.to_nat (sl_len sl)) (sl_mem sl)) (decode (tr_struct r) (firstn (Z.to_nat (sl_len sl)) (sl_mem sl)))).
    { split; [lia|]. apply get_all_decode; auto; lia. }
    split; [exact X|]. split; [lia|]. rewrite decode_firstn by auto. apply get_all_decode; auto; lia.
Qed.

(** * All getters *)
Lemma getters strict a p x : opened strict a p x ->
  (forall k r, nth_error (ad_structs a) k = Some r ->
     match get_struct x k with
     | Some m => exists d, holds p (tr_name r) (tr_schema r) d /\ firstn (length d) m = d /\ len m = len d + 8
     | None => tr_opt r = true /\ (strict = true -> forall d, ~ holds p (tr_name r) (tr_schema r) d)
     end) /\
  (forall k r, nth_error (ad_vectors a) k = Some r ->
     match get_vector x k with
     | Some sl => holds p (tr_name r) (tr_schema r) (sl_bytes sl) /\ slice_ok sl
     | None => tr_opt r = true /\ (strict = true -> forall d, ~ holds p (tr_name r) (tr_schema r) d)
     end) /\
  (forall k r, nth_error (ad_multis a) k = Some r ->
     match get_multi x k with
     | Some (mkMav i d) =>
         holds p (mr_index r) (index_schema (mr_schema r)) (sl_bytes i) /\ slice_ok i /\
         holds p (mr_name r) (mr_schema r) (sl_bytes d) /\ slice_ok d
     | None => mr_opt r = true /\ (strict = true ->
         (forall d, ~ holds p (mr_index r) (index_schema (mr_schema r)) d) \/ (forall d, ~ holds p (mr_name r) (mr_schema r) d))
     end) /\
  (forall k r, nth_error (ad_raws a) k = Some r ->
     match get_raw x k with
     | Some sl => holds p (rr_name r) (rr_schema r) (sl_bytes sl) /\ slice_ok sl
     | None => rr_opt r = true /\ (strict = true -> forall d, ~ holds p (rr_name r) (rr_schema r) d)
     end) /\
  (forall k n a' opt, nth_error (ad_subs a) k = Some (n, a', opt) ->
     match get_sub x k with
     | Some x' => opened strict a' (sub_place p n) x'
     | None => opt = true /\ (strict = true -> forall x', ~ opened strict a' (sub_place p n) x')
     end).
Proof.
  rewrite opened_eq. intros (_ & Hs & Hv & Hm & Hr & Hu). split; [|split; [|split; [|split]]].
  - intros k r Hk. assert (T := nth_error_Forall2 _ _ _ _ _ None Hs Hk). unfold get_struct.
    destruct (nth k (ar_structs x) None) as [sl|]; [|exact T]. destruct T as (Hd & (L & _ & B) & L8).
    exists (sl_bytes sl). split; [exact Hd|]. unfold sl_bytes in *.
    assert (Ln : len (firstn (Z.to_nat (sl_len sl)) (sl_mem sl)) = sl_len sl) by (rewrite len_firstn; lia).
    split; [|simpl; lia]. simpl.
    replace (length (firstn (Z.to_nat (sl_len sl)) (sl_mem sl))) with (Z.to_nat (sl_len sl)); [reflexivity|].
    unfold len in Ln. lia.
  - intros k r Hk. assert (T := nth_error_Forall2 _ _ _ _ _ None Hv Hk). unfold get_vector.
    destruct (nth k (ar_vectors x) None) as [sl|]; [|exact T]. destruct T as (Hd & Ok & _). auto.
  - intros k r Hk. assert (T := nth_error_Forall2 _ _ _ _ _ (None, None) Hm Hk). unfold get_multi.
    destruct (nth k (ar_multis x) (None, None)) as [[i|] [d|]]; destruct T as [Ti Td]; simpl in Ti, Td.
    + destruct Ti as (Hi & Oi & _), Td as (Hd & Od & _). auto.
    + destruct Td as [O N]. split; [exact O|]. intros S. right. auto.
    + destruct Ti as [O N]. split; [exact O|]. intros S. left. auto.
    + destruct Ti as [O N]. split; [exact O|]. intros S. left. auto.
  - intros k r Hk. assert (T := nth_error_Forall2 _ _ _ _ _ None Hr Hk). unfold get_raw.
    destruct (nth k (ar_raws x) None) as [sl|]; [|exact T]. destruct T as (Hd & Ok & _). auto.
  - intros k n a' opt Hk. exact (nth_error_Forall2 _ _ _ _ _ None Hu Hk).
Qed.
