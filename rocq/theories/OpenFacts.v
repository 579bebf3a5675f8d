(** Calls that read return in any world, up to a header that overflows. *)
From Verif Require Import Base BaseFacts Codec CodecSpec CodecFacts Structs StructsSpec StructsFacts Views ViewsSpec ViewsFacts.
From Verif Require Import Storage PathFacts StorageSpec StorageFacts StorageMore StorageUse Writers WritersSpec StartSpec.
From Verif Require Import MultiViews MultiSpec Archives ArchiveSpec ArchiveFacts OpenSpec.
Local Open Scope list_scope.
Local Open Scope Z_scope.

(** * Only faults kill *)
Definition mortal {A} (m : M A) : Prop := forall w o w', m w = (o, w') ->
  incl (w_faults w') (w_faults w) /\ (o = Crash -> may_die w).
Lemma mortal_pure {A} (f : world -> outcome A * world) :
  (forall w, w_faults (snd (f w)) = w_faults w /\ fst (f w) <> Crash) -> mortal f.
Proof.
  intros H w o w' E. destruct (H w) as (F & N). rewrite E in F, N. cbn in F, N. rewrite F. split; [apply incl_refl|contradiction].
Qed.
Lemma mortal_ret {A} (a : A) : mortal (mret a).
Proof. apply mortal_pure. split; [reflexivity|discriminate]. Qed.
Lemma mortal_bind {A B} (m : M A) (f : A -> M B) : mortal m -> (forall a, mortal (f a)) -> mortal (mbind m f).
Proof.
  intros H1 H2 w o w' E. unfold mbind in E. destruct (m w) as [o1 w1] eqn:E1. destruct (H1 _ _ _ E1) as (I1 & D1).
  destruct o1 as [a| | |]; [|injection E as <- <-; split; [exact I1|discriminate]..|injection E as <- <-; auto].
  destruct (H2 a _ _ _ E) as (I2 & D2). split; [eapply incl_tran; eauto|]. intros X. destruct (D2 X) as (n & D). exists n. auto.
Qed.
Lemma mortal_try {A B E F} (conv : E -> F) (m : M (result A E)) (f : A -> M (result B F)) :
  mortal m -> (forall a, mortal (f a)) -> mortal (mtry conv m f).
Proof. intros H1 H2. apply mortal_bind; [exact H1|]. intros [a|x]; [apply H2|apply mortal_ret]. Qed.
Lemma mortal_syscall {A} (act : M (result A io_kind)) : mortal act -> mortal (syscall act).
Proof.
  intros H w o w' E. unfold syscall, next_fault in E. destruct (w_faults w) as [|f l] eqn:Ef.
  - destruct (H _ _ _ E) as (I1 & D). rewrite Ef in I1. split; [exact I1|exact D].
  - destruct f as [|k|n k|n].
    + destruct (H _ _ _ E) as (I1 & D). cbn in I1. split; [intros x Hx; right; exact (I1 x Hx)|].
      intros X. destruct (D X) as (n & Y). exists n. rewrite Ef. right. exact Y.
    + injection E as <- <-. split; [intros x Hx; right; exact Hx|discriminate].
    + injection E as <- <-. split; [intros x Hx; right; exact Hx|discriminate].
    + injection E as <- <-. split; [intros x Hx; right; exact Hx|]. intros _. exists n. rewrite Ef. left. reflexivity.
Qed.
Lemma mortal_exists k : mortal (path_exists k).
Proof.
  apply mortal_bind; [apply mortal_syscall, mortal_pure; split; [reflexivity|discriminate]|]. intros [x|x]; apply mortal_ret.
Qed.
Lemma mapped_not_crash k l w : omap Ok (mapped k l w) <> @Crash (result slice io_kind).
Proof. unfold mapped. destruct (l <=? _); discriminate. Qed.
Lemma mortal_mmap id p : mortal (mmap_read id p).
Proof.
  intros w o w' E. unfold mmap_read in E. destruct (w_maps w id p) as [l|] eqn:M.
  - injection E as <- <-. split; [apply incl_refl|]. intros X. destruct (mapped_not_crash _ _ _ X).
  - revert E. apply mortal_syscall. apply mortal_pure. intros w0. destruct (w_files w0 (key_of p)) as [c|]; [|split; [reflexivity|discriminate]].
    destruct (len c =? 0); [split; [reflexivity|discriminate]|]. cbn [fst snd]. split; [reflexivity|]. apply mapped_not_crash.
Qed.
Lemma mortal_resource st n : mortal (read_resource st n).
Proof.
  destruct st as [id base|id base]; unfold read_resource.
  - apply mortal_pure. intros w. destruct (w_resources w id _); [split; [reflexivity|discriminate]|].
    destruct (w_streams w id _) as [[c x]|]; (split; [reflexivity|discriminate]).
  - apply mortal_bind; [apply mortal_exists|]. intros []; [apply mortal_mmap|apply mortal_ret].
Qed.
Lemma obind_not_crash {A B} (x : outcome A) (f : A -> outcome B) : x <> Crash -> (forall a, f a <> Crash) -> obind x f <> Crash.
Proof. destruct x; cbn; auto; discriminate. Qed.
Ltac nocrash := repeat (match goal with
  | |- obind _ _ <> Crash => apply obind_not_crash; [|intros ?]
  | |- Ret _ <> Crash => discriminate | |- Panic <> Crash => discriminate | |- UB <> Crash => discriminate
  | |- context [match ?x with _ => _ end] => destruct x
  end; cbn beta iota).
Lemma check_not_crash b e n s d sc : check_resource b e n s d sc <> Crash.
Proof.
  unfold check_resource, slice_from, slice_range, uadd, read_bytes, read_bytes_int, load_u64, mem_get, mem_read, extend_sign, usub, wrap_or_panic.
  cbn zeta. nocrash.
Qed.

Lemma mortal_read b e st n s : mortal (read b e st n s).
Proof.
  apply mortal_try; [apply mortal_resource|]. intros d. apply mortal_try; [apply mortal_resource|]. intros sc.
  apply mortal_pure. intros w. split; [reflexivity|]. apply check_not_crash.
Qed.
Lemma mortal_subdir st n : mortal (subdir st n).
Proof. destruct st; apply mortal_pure; (split; [reflexivity|discriminate]). Qed.
Lemma mortal_check {A} opt (m : M (result A rs_error)) : mortal m -> mortal (check_part opt m).
Proof. intros H. apply mortal_bind; [exact H|]. intros [x|x]; apply mortal_ret. Qed.
Lemma mortal_each {A B} (f : A -> M (result B rs_error)) l : (forall x, In x l -> mortal (f x)) -> mortal (each f l).
Proof.
  induction l as [|x l IH]; intros H; cbn [each]; [apply mortal_ret|].
  apply mortal_try; [apply H; left; reflexivity|]. intros y. apply mortal_try; [apply IH; intros z Hz; apply H; right; exact Hz|].
  intros ys. apply mortal_ret.
Qed.
Lemma mortal_open b e a : forall st, mortal (open_archive b e a st).
Proof.
  induction a as [name schema ss vs ms rs subs IH] using adesc_deep_ind. intros st.
  assert (H : mortal (fun w => open_archive b e (mkArchive name schema ss vs ms rs subs) st w)); [|exact H].
  intros w o w' E. rewrite open_eq in E. revert w o w' E. rewrite Forall_forall in IH.
  match goal with |- forall w o w', ?m w = _ -> _ => change (mortal m) end.
  apply mortal_try; [apply mortal_read|]. intros _.
  apply mortal_try; [apply mortal_each; intros r _; apply mortal_check, mortal_read|]. intros y1.
  apply mortal_try; [apply mortal_each; intros r _; apply mortal_check, mortal_read|]. intros y2.
  apply mortal_try.
  { apply mortal_each. intros r _. apply mortal_try; [apply mortal_check, mortal_read|]. intros i.
    apply mortal_try; [apply mortal_check, mortal_read|]. intros d. apply mortal_ret. }
  intros y3. apply mortal_try; [apply mortal_each; intros r _; apply mortal_check, mortal_read|]. intros y4.
  apply mortal_try; [|intros y5; apply mortal_ret]. apply mortal_each. intros s Hs.
  apply mortal_check. apply mortal_bind; [apply mortal_subdir|]. intros st'. apply (IH s Hs).
Qed.

(** * The results of read and open *)
Lemma not_found_cut st n w : maps_ok w -> (forall x, ~ finds st w n x) -> cut_off st n w.
Proof.
  intros MO H. destruct st as [id base|id base]; cbn [finds] in H; [destruct (H _ eq_refl)|].
  destruct (w_maps w id (res_path (FileStorage id base) n)) as [l|] eqn:M; [|destruct (H _ eq_refl)].
  exists l. split; [reflexivity|]. split; [exact M|]. unfold file_content.
  destruct (w_files w (res_key (FileStorage id base) n)) as [c|] eqn:F.
  - destruct (Z_lt_le_dec (len c) l) as [L|L]; [exact L|]. destruct (H (Some (firstn (Z.to_nat l) c))). eauto.
  - exact (MO _ _ _ M).
Qed.
Lemma cut_not_found st n w x : cut_off st n w -> ~ finds st w n x.
Proof.
  intros (l & F & M & L) H. destruct st as [id base|id base]; [discriminate|]. cbn [finds] in H. cbn [st_id] in M. rewrite M in H.
  destruct H as (c & Hc & Hl & _). unfold file_content in L. rewrite Hc in L. lia.
Qed.
Lemma read_result b e st n s w : maps_ok w -> (forall c, finds st w n (Some c) -> stored_ok c) ->
  match fst (read b e st n s w) with
  | Ret _ => True
  | Panic => b = Debug /\ overflows (PStorage st w) n
  | UB => cut_off st n w \/ cut_off st (schema_name n) w
  | Crash => may_die w
  end.
Proof.
  intros MO S. destruct (read b e st n s w) as [o w'] eqn:E. cbn [fst].
  destruct (read_cases _ _ _ _ _ _ _ _ MO E) as (_ & X).
  destruct X as [(k & -> & _)|[(-> & _)|[(-> & X)|(c & sc & F1 & F2 & ->)]]].
  - exact I.
  - apply (mortal_read b e st n s _ _ _ E). reflexivity.
  - destruct X as [X|X]; [left|right]; apply not_found_cut; auto.
  - destruct (check_resource_cases b e n s c sc (S c F1)) as [(r & E1 & _)|(Hb & L & H & E1)]; unfold checked; rewrite E1; [exact I|].
    split; [exact Hb|]. exists c, sc. cbn [found]. auto.
Qed.

Definition sub_at (p : place) (s : string * adesc * bool) : place := sub_place p (fst (fst s)).
Lemma somewhere_eq Q a p : somewhere Q a p <->
  (exists n, In n (part_names a) /\ Q p n) \/ exists s, In s (ad_subs a) /\ somewhere Q (snd (fst s)) (sub_at p s).
Proof.
  destruct a as [name schema ss vs ms rs subs]. cbn [somewhere ad_subs].
  match goal with |- _ \/ ?G _ <-> _ => set (go := G) end.
  assert (H : forall l, go l <-> exists s, In s l /\ somewhere Q (snd (fst s)) (sub_at p s)).
  { induction l as [|[[n a] opt] l IH]; cbn; [firstorder|]. rewrite IH. split.
    - intros [X|(s & Hs & X)]; [exists (n, a, opt); auto|eauto].
    - intros (s & [<-|Hs] & X); eauto. }
  rewrite H. reflexivity.
Qed.
Lemma trips_eq a p : trips a p <->
  (exists n, In n (part_names a) /\ overflows p n) \/
  exists s, In s (ad_subs a) /\ checks (snd (fst s)) (sub_at p s) /\ trips (snd (fst s)) (sub_at p s).
Proof.
  destruct a as [name schema ss vs ms rs subs]. cbn [trips ad_subs].
  match goal with |- _ \/ ?G _ <-> _ => set (go := G) end.
  assert (H : forall l, go l <-> exists s, In s l /\ checks (snd (fst s)) (sub_at p s) /\ trips (snd (fst s)) (sub_at p s)).
  { induction l as [|[[n a] opt] l IH]; cbn; [firstorder|]. rewrite IH. split.
    - intros [X|(s & Hs & X)]; [exists (n, a, opt); auto|eauto].
    - intros (s & [<-|Hs] & X); eauto. }
  rewrite H. reflexivity.
Qed.

(** A panic has reason [P]. *)
Definition blames {B} (st : storage) (p : place) (m : M (result B rs_error)) (P : Prop) : Prop := forall w o w',
  represents st w p -> m w = (o, w') -> opening w w' /\ (o = Panic -> P).
Lemma blames_ret {B} st p (y : result B rs_error) P : blames st p (mret y) P.
Proof. intros w o w' R E. injection E as <- <-. split; [apply opening_refl|discriminate]. Qed.
Lemma blames_try {A B} st p (m : M (result A rs_error)) (f : A -> M (result B rs_error)) (P : Prop) :
  blames st p m P -> (forall a, blames st p (f a) P) -> blames st p (mtry (fun x => x) m f) P.
Proof.
  intros H1 H2 w o w' R E. unfold mtry, mbind in E. destruct (m w) as [o1 w1] eqn:E1. destruct (H1 _ _ _ R E1) as (O & X).
  destruct o1 as [[a|x]| | |]; try (injection E as <- <-; split; [exact O|auto; discriminate]).
  destruct (H2 a _ _ _ (represents_opening _ _ _ _ O R) E) as (O2 & Y). split; [eapply opening_trans; eauto|exact Y].
Qed.
Lemma blames_check {B} st p opt (m : M (result B rs_error)) (P : Prop) : blames st p m P -> blames st p (check_part opt m) P.
Proof.
  intros H w o w' R E. unfold check_part, mbind in E. destruct (m w) as [o1 w1] eqn:E1. destruct (H _ _ _ R E1) as (O & X).
  destruct o1 as [[a|x]| | |]; injection E as <- <-; (split; [exact O|auto; discriminate]).
Qed.
Lemma blames_each {A B} st p (f : A -> M (result B rs_error)) l (P : Prop) :
  (forall x, In x l -> blames st p (f x) P) -> blames st p (each f l) P.
Proof.
  induction l as [|x l IH]; intros H; cbn [each]; [apply blames_ret|].
  apply blames_try; [apply H; left; reflexivity|]. intros y. apply blames_try; [apply IH; intros z Hz; apply H; right; exact Hz|].
  intros ys. apply blames_ret.
Qed.
Lemma blames_subdir {B} st p n (k : storage -> M (result B rs_error)) (P : Prop) :
  (forall st', blames st' (sub_place p n) (k st') P) -> blames st p (let! st' := subdir st n in k st') P.
Proof.
  intros H w o w' R E. unfold mbind in E. destruct (subdir st n w) as [o1 w1] eqn:E1.
  destruct (subdir_represents _ _ _ _ _ _ R E1) as (O1 & st' & -> & R'). destruct (H st' _ _ _ R' E) as (O2 & X).
  split; [eapply opening_trans; eauto|exact X].
Qed.
Lemma blames_read b e st p n s (P : Prop) : readable p n -> (b = Debug -> overflows p n -> P) -> blames st p (read b e st n s) P.
Proof.
  intros (X1 & X2 & S) H w o w' R E. assert (MO := R). destruct MO as (MO & _).
  destruct (read_cases _ _ _ _ _ _ _ _ MO E) as (Rd & X). split; [eapply reads_opening; eauto|]. intros ->.
  destruct X as [(k & X & _)|[(X & _)|[(X & _)|(c & sc & F1 & F2 & X)]]]; try discriminate X.
  apply (represents_found _ _ _ _ _ R X1) in F1. apply (represents_found _ _ _ _ _ R X2) in F2.
  destruct (check_resource_cases b e n s c sc (S c F1)) as [(r & E1 & _)|(Hb & L & Hd & E1)].
  - unfold checked in X. rewrite E1 in X. discriminate X.
  - apply H; [exact Hb|]. exists c, sc. auto.
Qed.
Lemma blames_open b e a : forall st p (P : Prop), everywhere readable a p -> (b = Debug -> somewhere overflows a p -> P) ->
  blames st p (open_archive b e a st) P.
Proof.
  induction a as [name schema ss vs ms rs subs IH] using adesc_deep_ind. intros st p P Rd H.
  destruct (proj1 (everywhere_eq _ _ _) Rd) as (Rp & Rs). rewrite Forall_forall in IH, Rp, Rs.
  set (a := mkArchive name schema ss vs ms rs subs) in *.
  assert (HP : forall n, In n (part_names a) -> readable p n /\ (b = Debug -> overflows p n -> P)).
  { intros n Hn. split; [apply Rp, Hn|]. intros Hb O. apply H; [exact Hb|]. apply somewhere_eq. left. eauto. }
  assert (N : Forall (fun n => readable p n /\ (b = Debug -> overflows p n -> P)) (part_names a)) by (apply Forall_forall, HP).
  apply part_names_all in N. destruct N as (N0 & N1 & N2 & N3 & N4). rewrite Forall_forall in N1, N2, N3, N4.
  intros w o w' Re E. rewrite open_eq in E. revert w o w' Re E.
  match goal with |- forall w o w', _ -> ?m w = _ -> _ => change (blames st p m P) end.
  apply blames_try; [apply blames_read; apply N0|]. intros _.
  apply blames_try; [apply blames_each; intros r Hr; apply blames_check, blames_read; apply N1, Hr|]. intros y1.
  apply blames_try; [apply blames_each; intros r Hr; apply blames_check, blames_read; apply N2, Hr|]. intros y2.
  apply blames_try.
  { apply blames_each. intros r Hr. destruct (N3 r Hr) as (Ni & Nd). apply blames_try; [apply blames_check, blames_read; apply Ni|]. intros i.
    apply blames_try; [apply blames_check, blames_read; apply Nd|]. intros d. apply blames_ret. }
  intros y3. apply blames_try; [apply blames_each; intros r Hr; apply blames_check, blames_read; apply N4, Hr|]. intros y4.
  apply blames_try; [|intros y5; apply blames_ret]. apply blames_each. intros s Hs.
  apply blames_check, blames_subdir. intros st'. apply (IH s Hs); [apply Rs, Hs|].
  intros Hb X. apply H; [exact Hb|]. apply somewhere_eq. right. exists s. split; [exact Hs|exact X].
Qed.
Lemma open_result b e a st w : let p := PStorage st w in
  maps_ok w -> (st_id st < w_next w)%nat -> everywhere readable a p ->
  match fst (open_archive b e a st w) with
  | Ret _ => True
  | Panic => b = Debug /\ somewhere overflows a p
  | UB => False
  | Crash => may_die w
  end.
Proof.
  intros p MO Hi Rd. destruct (open_archive b e a st w) as [o w'] eqn:E. cbn [fst].
  assert (Re := represents_self st w MO Hi).
  destruct (does_open b e a st p Rd w o w' Re E) as (_ & X).
  destruct o; auto.
  - apply (proj2 (blames_open b e a st p (b = Debug /\ somewhere overflows a p) Rd (fun x y => conj x y) _ _ _ Re E)). reflexivity.
  - apply (mortal_open b e a st _ _ _ E). reflexivity.
Qed.

(** * Panics of open, if nothing fails *)
Definition quiet (st : storage) (p : place) (w : world) : Prop := represents st w p /\ w_faults w = [].
Definition steady {B} (st : storage) (p : place) (m : M (result B rs_error)) : Prop := forall w o w',
  quiet st p w -> m w = (o, w') -> quiet st p w' /\ (o = Panic \/ exists y, o = Ret (Ok y)).
Definition breaks {B} (st : storage) (p : place) (m : M (result B rs_error)) : Prop := forall w,
  quiet st p w -> fst (m w) = Panic.
Lemma quiet_opening st p w w' : opening w w' -> quiet st p w -> quiet st p w'.
Proof. intros O (R & F). split; [eapply represents_opening; eauto|]. apply O, F. Qed.
Lemma steady_check {B} st p opt (m : M (result B rs_error)) Q T : does st p m Debug Q T -> (opt = false -> exists y, Q true y) ->
  steady st p (check_part opt m).
Proof.
  intros D H w o w' Q0 E. unfold check_part, mbind in E. destruct (m w) as [o1 w1] eqn:E1.
  destruct (D _ _ _ (proj1 Q0) E1) as (O & X). assert (Q1 := quiet_opening _ _ _ _ O Q0).
  destruct o1 as [[y|x]| | |].
  - injection E as <- <-. eauto.
  - destruct opt; [injection E as <- <-; eauto|]. destruct (H eq_refl) as (y & Hy). destruct (X (proj2 Q0) y Hy).
  - injection E as <- <-. eauto.
  - contradiction.
  - destruct (X (proj2 Q0)).
Qed.
Lemma steady_does {B} st p (m : M (result B rs_error)) Q T : does st p m Debug Q T -> (exists y, Q true y) -> steady st p m.
Proof.
  intros D (y & Hy) w o w' Q0 E. destruct (D _ _ _ (proj1 Q0) E) as (O & X). split; [eapply quiet_opening; eauto|].
  destruct o as [[z|x]| | |]; eauto; [|contradiction|destruct (X (proj2 Q0))]. destruct (X (proj2 Q0) y Hy).
Qed.
Lemma steady_ret {B} st p (y : B) : steady st p (mret (Ok y)).
Proof. intros w o w' Q0 E. injection E as <- <-. eauto. Qed.
Lemma steady_try {A B} st p (m : M (result A rs_error)) (f : A -> M (result B rs_error)) :
  steady st p m -> (forall a, steady st p (f a)) -> steady st p (mtry (fun x => x) m f).
Proof.
  intros H1 H2 w o w' Q0 E. unfold mtry, mbind in E. destruct (m w) as [o1 w1] eqn:E1.
  destruct (H1 _ _ _ Q0 E1) as (Q1 & [->|(y & ->)]); [injection E as <- <-; auto|]. apply (H2 y _ _ _ Q1 E).
Qed.
Lemma breaks_try {A B} st p (m : M (result A rs_error)) (f : A -> M (result B rs_error)) : breaks st p m -> breaks st p (mtry (fun x => x) m f).
Proof.
  intros H w Q0. unfold mtry, mbind. specialize (H w Q0). destruct (m w) as [o1 w1]. cbn in H. rewrite H. reflexivity.
Qed.
Lemma breaks_after {A B} st p (m : M (result A rs_error)) (f : A -> M (result B rs_error)) :
  steady st p m -> (forall a, breaks st p (f a)) -> breaks st p (mtry (fun x => x) m f).
Proof.
  intros H1 H2 w Q0. unfold mtry, mbind. destruct (m w) as [o1 w1] eqn:E1.
  destruct (H1 _ _ _ Q0 E1) as (Q1 & [->|(y & ->)]); [reflexivity|]. apply H2, Q1.
Qed.
Lemma breaks_check {B} st p opt (m : M (result B rs_error)) : breaks st p m -> breaks st p (check_part opt m).
Proof. intros H w Q0. unfold check_part, mbind. specialize (H w Q0). destruct (m w) as [o1 w1]. cbn in H. rewrite H. reflexivity. Qed.
Lemma steady_each {A B} st p (f : A -> M (result B rs_error)) l : (forall x, In x l -> steady st p (f x)) -> steady st p (each f l).
Proof.
  induction l as [|x l IH]; intros H; cbn [each]; [apply steady_ret|].
  apply steady_try; [apply H; left; reflexivity|]. intros y. apply steady_try; [apply IH; intros z Hz; apply H; right; exact Hz|].
  intros ys. apply steady_ret.
Qed.
Lemma breaks_each {A B} st p (f : A -> M (result B rs_error)) l x : (forall x, In x l -> steady st p (f x)) ->
  In x l -> breaks st p (f x) -> breaks st p (each f l).
Proof.
  induction l as [|y l IH]; intros H Hx Bx; [destruct Hx|]. cbn [each]. destruct Hx as [->|Hx].
  - apply breaks_try, Bx.
  - apply breaks_after; [apply H; left; reflexivity|]. intros z. apply breaks_try. apply IH; auto. intros z' Hz. apply H. right. exact Hz.
Qed.
Lemma breaks_read e st p n s : readable p n -> overflows p n -> breaks st p (read Debug e st n s).
Proof.
  intros (_ & _ & S) (c & sc & F1 & F2 & L & H) w ((MO & I1 & Fw & X) & Hf).
  destruct (read_header_panics e st n s w c sc Hf MO (Fw _ _ F1) (Fw _ _ F2) (S c F1) L H) as (w' & ->). reflexivity.
Qed.
Lemma breaks_subdir {B} st p n (k : storage -> M (result B rs_error)) :
  (forall st', breaks st' (sub_place p n) (k st')) -> breaks st p (let! st' := subdir st n in k st').
Proof.
  intros H w (R & F). unfold mbind. destruct (subdir st n w) as [o1 w1] eqn:E1.
  destruct (subdir_represents _ _ _ _ _ _ R E1) as (O1 & st' & -> & R'). apply H. split; [exact R'|]. apply O1, F.
Qed.
Lemma steady_part e st p opt n s : readable p n -> (opt = false -> sound p n s) -> steady st p (check_part opt (read Debug e st n s)).
Proof.
  intros R H. eapply steady_check; [apply does_read, R|]. intros Ho. destruct (H Ho) as (d & Hd).
  destruct (holds_slice _ _ _ _ R Hd) as (sl & <- & X). eauto.
Qed.
Lemma breaks_open e a : forall st p, everywhere readable a p -> checks a p -> trips a p -> breaks st p (open_archive Debug e a st).
Proof.
  induction a as [name schema ss vs ms rs subs IH] using adesc_deep_ind. intros st p Rd Ck Tr.
  destruct (proj1 (everywhere_eq _ _ _) Rd) as (Rp & Rs). apply part_names_all in Rp. destruct Rp as (R0 & R1 & R2 & R3 & R4).
  rewrite Forall_forall in IH, R1, R2, R3, R4, Rs. set (a := mkArchive name schema ss vs ms rs subs) in *.
  apply checks_eq in Ck. destruct Ck as (C0 & C1 & C3 & C4 & C5). rewrite Forall_forall in C5.
  assert (S0 : steady st p (read Debug e st (signature_name (ad_name a)) (ad_schema a))).
  { destruct C0 as (d & Hd). destruct (holds_slice _ _ _ _ R0 Hd) as (sl & <- & X). eapply steady_does; [apply does_read, R0|]. eauto. }
  assert (S1 : forall r, In r (ad_structs a) -> steady st p (open_typed Debug e st r)).
  { intros r Hr. apply steady_part; [apply R1, Hr|]. apply C1. apply in_or_app. auto. }
  assert (S2 : forall r, In r (ad_vectors a) -> steady st p (open_typed Debug e st r)).
  { intros r Hr. apply steady_part; [apply R2, Hr|]. apply C1. apply in_or_app. auto. }
  assert (S3 : forall r, In r (ad_multis a) -> steady st p (open_multi Debug e st r)).
  { intros r Hr. destruct (R3 r Hr) as (Ri & Rm). apply steady_try; [apply steady_part; [exact Ri|]; intros Ho; apply (C3 r Hr Ho)|].
    intros i. apply steady_try; [apply steady_part; [exact Rm|]; intros Ho; apply (C3 r Hr Ho)|]. intros d. apply steady_ret. }
  assert (S4 : forall r, In r (ad_raws a) -> steady st p (open_raw Debug e st r)).
  { intros r Hr. apply steady_part; [apply R4, Hr|]. apply C4, Hr. }
  assert (S5 : forall s, In s (ad_subs a) -> steady st p (open_sub Debug e st s)).
  { intros s Hs. eapply steady_check; [apply does_subdir; intros st'; apply (does_open Debug e (snd (fst s)) st' (sub_at p s)), Rs, Hs|].
    intros Ho. apply (opened_dec _ _ (Rs s Hs)). apply (C5 s Hs Ho). }
  intros w Q0. rewrite open_eq. revert w Q0.
  match goal with |- forall w, _ -> fst (?m w) = _ => change (breaks st p m) end.
  apply trips_eq in Tr. destruct Tr as [(n & Hn & O)|(s & Hs & Cs & Ts)].
  - unfold part_names in Hn. destruct Hn as [<-|Hn]; [apply breaks_try, breaks_read; auto|].
    apply breaks_after; [exact S0|]. intros _. apply in_app_or in Hn. destruct Hn as [Hn|Hn].
    { apply in_map_iff in Hn. destruct Hn as (r & <- & Hr). apply breaks_try. apply (breaks_each _ _ _ _ r S1 Hr).
      apply breaks_check, breaks_read; [apply R1, Hr|exact O]. }
    apply breaks_after; [apply steady_each, S1|]. intros y1. apply in_app_or in Hn. destruct Hn as [Hn|Hn].
    { apply in_map_iff in Hn. destruct Hn as (r & <- & Hr). apply breaks_try. apply (breaks_each _ _ _ _ r S2 Hr).
      apply breaks_check, breaks_read; [apply R2, Hr|exact O]. }
    apply breaks_after; [apply steady_each, S2|]. intros y2. apply in_app_or in Hn. destruct Hn as [Hn|Hn].
    { apply in_flat_map in Hn. destruct Hn as (r & Hr & Hn). destruct (R3 r Hr) as (Ri & Rm).
      apply breaks_try. apply (breaks_each _ _ _ _ r S3 Hr). destruct Hn as [<-|[<-|[]]].
      - apply breaks_try, breaks_check, breaks_read; auto.
      - apply breaks_after; [apply steady_part; [exact Ri|]; intros Ho; apply (C3 r Hr Ho)|]. intros i.
        apply breaks_try, breaks_check, breaks_read; auto. }
    apply breaks_after; [apply steady_each, S3|]. intros y3.
    apply in_map_iff in Hn. destruct Hn as (r & <- & Hr). apply breaks_try. apply (breaks_each _ _ _ _ r S4 Hr).
    apply breaks_check, breaks_read; [apply R4, Hr|exact O].
  - apply breaks_after; [exact S0|]. intros _. apply breaks_after; [apply steady_each, S1|]. intros y1.
    apply breaks_after; [apply steady_each, S2|]. intros y2. apply breaks_after; [apply steady_each, S3|]. intros y3.
    apply breaks_after; [apply steady_each, S4|]. intros y4. apply breaks_try. apply (breaks_each _ _ _ _ s S5 Hs).
    apply breaks_check, breaks_subdir. intros st'. apply (IH s Hs); [apply Rs, Hs|exact Cs|exact Ts].
Qed.
Lemma open_trips e a st w : let p := PStorage st w in
  maps_ok w -> (st_id st < w_next w)%nat -> everywhere readable a p -> w_faults w = [] ->
  checks a p -> trips a p -> fst (open_archive Debug e a st w) = Panic.
Proof. intros p MO Hi Rd Hf Ck Tr. apply (breaks_open e a st p Rd Ck Tr). split; [apply represents_self; auto|exact Hf]. Qed.
Lemma trips_somewhere a : forall p, trips a p -> somewhere overflows a p.
Proof.
  induction a as [name schema ss vs ms rs subs IH] using adesc_deep_ind. intros p T. rewrite Forall_forall in IH.
  apply trips_eq in T. apply somewhere_eq. destruct T as [T|(s & Hs & _ & T)]; [left; exact T|right]. exists s. split; [exact Hs|]. apply (IH s Hs _ T).
Qed.
(** In a new process. *)
Lemma fresh_result b e a base w : disk_ok w ->
  (exists r, fresh_open b e a base w = Ret r) \/
  (fresh_open b e a base w = Panic /\ b = Debug /\ somewhere overflows a (PDisk base w)).
Proof.
  intros D. change (fresh_open b e a base w) with (fst (open_archive b e a (FileStorage 0 base) (reader_world w))).
  assert (Rd : everywhere readable a (PDisk base w)) by (apply everywhere_disk; intros; apply readable_disk, D).
  destruct (open_archive b e a (FileStorage 0 base) (reader_world w)) as [o w'] eqn:E. cbn [fst].
  assert (Re := represents_disk base w). destruct (does_open b e a _ _ Rd _ _ _ Re E) as (_ & X).
  destruct o as [r| | |]; [eauto| |contradiction|destruct (X eq_refl)]. right. split; [reflexivity|].
  apply (proj2 (blames_open b e a _ _ (b = Debug /\ somewhere overflows a (PDisk base w)) Rd (fun x y => conj x y) _ _ _ Re E)). reflexivity.
Qed.
Lemma fresh_trips e a base w : disk_ok w -> checks a (PDisk base w) -> trips a (PDisk base w) -> fresh_open Debug e a base w = Panic.
Proof.
  intros D Ck Tr. change (fresh_open Debug e a base w) with (fst (open_archive Debug e a (FileStorage 0 base) (reader_world w))).
  apply (breaks_open e a _ _ (everywhere_disk _ _ _ _ (fun b n => readable_disk b w n D)) Ck Tr). split; [apply represents_disk|reflexivity].
Qed.
