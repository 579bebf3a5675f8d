(** Proofs: which error opening an archive returns. *)
From Verif Require Import Base BaseFacts Codec CodecSpec Structs StructsSpec Views ViewsSpec.
From Verif Require Import Storage PathFacts StorageSpec StorageFacts StorageMore Writers WritersSpec MultiViews MultiSpec.
From Verif Require Import Archives ArchiveSpec ArchiveFacts BuilderSpec BuilderFacts MomentSpec MomentUse DuringSpec DuringUse ErrorSpec.
Local Open Scope list_scope.
Local Open Scope Z_scope.

Section Env.
Variables (b : build) (e : endian) (w : world).
Hypothesis returns : forall base n s, exists r, fresh_read b e base n s w = Ret r.
Notation rd := (read_at b e w).

Fixpoint first_error (l : list (string * string * list Z)) : option rs_error :=
  match l with
  | [] => None
  | r :: l => match rd r with Ret (Er x) => Some x | _ => first_error l end
  end.
Definition gives_error {A} (m : during A) (l : list (string * string * list Z)) : Prop :=
  forall i, exists r j, m i = Ret (r, j) /\
    match r with Er x => first_error l = Some x | Ok _ => first_error l = None end.

Lemma first_error_app l1 l2 : first_error (l1 ++ l2) = match first_error l1 with Some x => Some x | None => first_error l2 end.
Proof.
  induction l1 as [|r l1 IH]; simpl; auto. destruct (rd r) as [[d|x]| | |]; auto.
Qed.
Lemma gives_ret {A} (x : A) : gives_error (dret (Ok x)) [].
Proof. intros i. exists (Ok x), i. auto. Qed.
Lemma gives_try {A B} (m : during A) (f : A -> during B) l1 l2 : gives_error m l1 -> (forall x, gives_error (f x) l2) ->
  gives_error (dtry m f) (l1 ++ l2).
Proof.
  intros H K i. unfold dtry. destruct (H i) as (r & j & -> & E). cbn [obind fst snd]. rewrite first_error_app.
  destruct r as [x|x]; rewrite E; [|exists (Er x), j; auto].
  destruct (K x j) as (r & j' & -> & E'). exists r, j'. auto.
Qed.
Lemma gives_part {A} opt (m : during A) l : gives_error m l -> gives_error (dpart opt m) (need_if opt l).
Proof.
  intros H i. unfold dpart. destruct (H i) as (r & j & -> & E). cbn [obind fst snd].
  destruct r as [x|x]; [exists (Ok (Some x)), j; split; auto; destruct opt; auto|].
  destruct opt; [exists (Ok None), j; auto|exists (Er x), j; auto].
Qed.
Lemma gives_read base n s : gives_error (dread b e (fun _ => w) base n s) [need base n s].
Proof.
  intros i. unfold dread. rewrite read_during_still. destruct (returns base n s) as (r & E). rewrite E. cbn [obind].
  exists r, (i + 6)%nat. split; auto. unfold need. simpl. unfold read_at. cbn [fst snd]. rewrite E. destruct r; auto.
Qed.
Lemma gives_each {A B} (f : A -> during B) g l : (forall x, gives_error (f x) (g x)) -> gives_error (deach f l) (flat_map g l).
Proof.
  intros H. induction l as [|x l IH]; simpl; [apply gives_ret|].
  apply gives_try; auto. intros y. rewrite <- (app_nil_r (flat_map g l)). apply gives_try; auto. intros ys. apply gives_ret.
Qed.
Lemma gives_open a : forall base, gives_error (open_during b e (fun _ => w) a base) (required_reads a base).
Proof.
  induction a as [name schema ss vs ms rs subs IH] using adesc_deep_ind. intros base. cbn [open_during required_reads].
  change (?x :: ?l) with ([x] ++ l). apply gives_try; [apply gives_read|]. intros _.
  apply gives_try; [apply gives_each; intros r; apply gives_part, gives_read|]. intros xs.
  apply gives_try; [apply gives_each; intros r; apply gives_part, gives_read|]. intros xv.
  apply gives_try.
  { apply gives_each. intros r. unfold dmulti.
    replace (need_if (mr_opt r) [need base (mr_index r) (index_schema (mr_schema r)); need base (mr_name r) (mr_schema r)])
      with (need_if (mr_opt r) [need base (mr_index r) (index_schema (mr_schema r))] ++ need_if (mr_opt r) [need base (mr_name r) (mr_schema r)] ++ [])
      by (destruct (mr_opt r); reflexivity).
    apply gives_try; [apply gives_part, gives_read|]. intros y. apply gives_try; [apply gives_part, gives_read|]. intros y'. apply gives_ret. }
  intros xm. apply gives_try; [apply gives_each; intros r; apply gives_part, gives_read|]. intros xr.
  rewrite <- (app_nil_r ((fix go (l : list (string * adesc * bool)) := _) subs)). apply gives_try; [|intros xu; apply gives_ret].
  induction IH as [|[[n a'] opt] l Ha IH IH']; [apply gives_ret|].
  apply gives_try; [apply gives_part, Ha|]. intros y. rewrite <- (app_nil_r ((fix go (l : list (string * adesc * bool)) := _) l)).
  apply gives_try; [exact IH'|]. intros ys. apply gives_ret.
Qed.

Lemma first_error_spec l x : first_error l = Some x <-> exists r, first_failure b e w l r x.
Proof.
  split.
  - induction l as [|r l IH]; simpl; [discriminate|]. destruct (returns (fst (fst r)) (snd (fst r)) (snd r)) as (o & E).
    unfold read_at. rewrite E. destruct o as [d|y].
    + intros H. destruct (IH H) as (q & l1 & l2 & -> & K1 & K2). exists q, (r :: l1), l2. split; auto. split; auto.
      intros q' [<-|I]; eauto.
    + intros [= ->]. exists r, [], l. split; auto. split; [intros q []|exact E].
  - intros (r & l1 & l2 & -> & K1 & K2). rewrite first_error_app.
    assert (N : first_error l1 = None).
    { induction l1 as [|q l1 IH]; auto. simpl. destruct (K1 q) as (d & ->); [left; auto|]. apply IH. intros q' I. apply K1. right; auto. }
    rewrite N. simpl. rewrite K2. reflexivity.
Qed.

Lemma open_first_error a base : exists r, fresh_open b e a base w = Ret r /\
  forall x, r = Er x <-> exists q, first_failure b e w (required_reads a base) q x.
Proof.
  destruct (gives_open a base O) as (r & j & E & K). exists r. rewrite <- open_during_still, E. split; [reflexivity|].
  intros x. rewrite <- first_error_spec. destruct r as [y|y]; rewrite K; split; congruence.
Qed.
End Env.

Lemma reads_return b e base n s w : disk_ok w -> (b = Release \/ forall base n, tame (PDisk base w) n) ->
  exists r, fresh_read b e base n s w = Ret r.
Proof.
  intros D T. assert (X := fresh_read_cases b e base n s w). unfold fresh_result in X.
  destruct (on_file (w_files w (res_key (FileStorage 0 base) n))) as [c|] eqn:E1;
    destruct (on_file (w_files w (res_key (FileStorage 0 base) (schema_name n)))) as [sc|]; try (destruct X as (k & ->); eauto; fail). rewrite X. unfold checked.
  assert (F : found (PDisk base w) n (Some c)).
  { simpl. unfold on_file, res_key, res_path in E1. cbn [st_base] in E1.
    destruct (w_files w (key_of (path_join base n))) as [[|x l]|]; try discriminate; congruence. }
  assert (So : stored_ok c).
  { unfold on_file in E1. destruct (w_files w _) as [[|x l]|] eqn:E2; try discriminate. injection E1 as <-. eapply D; eauto. }
  destruct (check_resource_cases b e n s c sc So) as [(r & -> & _)|(Hb & _ & Hh & _)]; [eauto|].
  destruct T as [->|T]; [discriminate|]. specialize (T base n c F). lia.
Qed.

(** * Names in errors *)
Definition errs {A} (l : list string) (m : M (result A rs_error)) : Prop :=
  forall w x w', m w = (Ret (Er x), w') -> reports l x.
Lemma reports_mono l l' x : (forall n, In n l -> In n l') -> reports l x -> reports l' x.
Proof. intros H (A & B). split; auto. Qed.
Lemma errs_mono {A} l l' (m : M (result A rs_error)) : (forall n, In n l -> In n l') -> errs l m -> errs l' m.
Proof. intros H K w x w' E. eapply reports_mono; [exact H|eapply K; exact E]. Qed.
Lemma errs_ok {A} l (x : A) : errs l (mret (Ok x)).
Proof. intros w y w' E. discriminate E. Qed.
Lemma errs_try {A B} l (m : M (result A rs_error)) (f : A -> M (result B rs_error)) :
  errs l m -> (forall x, errs l (f x)) -> errs l (mtry (fun k => k) m f).
Proof.
  intros H K w x w' E. unfold mtry, mbind in E. destruct (m w) as [[[y|y]| | |] w1] eqn:E1; try discriminate.
  - eapply K; exact E.
  - injection E as <- <-. eapply H; exact E1.
Qed.
Lemma errs_io {A B} l n (m : M (result A io_kind)) (f : A -> M (result B rs_error)) :
  In n l -> (forall x, errs l (f x)) -> errs l (mtry (fun k => EIo k n) m f).
Proof.
  intros I K w x w' E. unfold mtry, mbind in E. destruct (m w) as [[[y|y]| | |] w1] eqn:E1; try discriminate.
  - eapply K; exact E.
  - injection E as <- <-. split; [reflexivity|]. intros n' [= <-]. exact I.
Qed.
Lemma errs_part {A} l opt (m : M (result A rs_error)) : (opt = false -> errs l m) -> errs l (check_part opt m).
Proof.
  intros H w x w' E. unfold check_part, mbind in E. destruct (m w) as [[[y|y]| | |] w1] eqn:E1; try discriminate.
  destruct opt; [discriminate|]. injection E as <- <-. eapply H; eauto.
Qed.
Lemma errs_each {A B} l (f : A -> M (result B rs_error)) xs : (forall x, In x xs -> errs l (f x)) -> errs l (each f xs).
Proof.
  intros H. induction xs as [|x xs IH]; simpl; [apply errs_ok|].
  apply errs_try; [apply H; left; auto|]. intros y. apply errs_try; [apply IH; intros; apply H; right; auto|]. intros ys. apply errs_ok.
Qed.
Lemma errs_read b e st n s : errs [n] (read b e st n s).
Proof.
  unfold read. apply errs_io; [left; auto|]. intros d. apply errs_io; [left; auto|]. intros sc w x w' E.
  unfold lift, check_resource in E. injection E as E _. revert E.
  destruct (_ <? _); [intros [= <-]; split; [reflexivity|discriminate]|].
  repeat match goal with
  | |- context [obind ?m ?f] => destruct m as [?v| | |] eqn:?; cbn [obind]; try discriminate
  | |- context [if negb (bytes_eqb ?x ?y) then _ else _] => destruct (negb (bytes_eqb x y)); [intros [= <-]; split; [reflexivity|intros n' [= <-]; left; auto]|]
  | |- context [if ?c then _ else _] => destruct c; [intros [= <-]; split; [reflexivity|discriminate]|]
  end; discriminate.
Qed.
Lemma errs_create_archive b e st n s : errs [signature_name n] (create_archive b e st n s).
Proof.
  unfold create_archive. intros w x w' E. unfold mbind at 1 in E. destruct (exists_ _ _ w) as [[[|]| | |] w1]; try discriminate.
  - injection E as <- <-. split; [reflexivity|]. intros n' [= <-]. left; auto.
  - revert E. apply (errs_io [signature_name n]); [left; auto|]. intros y. apply errs_ok.
Qed.

Lemma names_app l1 l2 : names_of (l1 ++ l2) = names_of l1 ++ names_of l2.
Proof. apply map_app. Qed.
Lemma names_flat {A} (g : A -> list (string * string * list Z)) l x n : In x l -> In n (names_of (g x)) -> In n (names_of (flat_map g l)).
Proof.
  intros I H. unfold names_of in *. apply in_map_iff in H as (q & <- & Hq). apply (in_map (fun r => snd (fst r))), in_flat_map. eauto.
Qed.

Lemma errs_open b e a : forall st base, errs (names_of (required_reads a base)) (open_archive b e a st).
Proof.
  induction a as [name schema ss vs ms rs subs IH] using adesc_deep_ind. intros st base. cbn [open_archive required_reads].
  change (?x :: ?l) with ([x] ++ l). rewrite !names_app.
  set (N0 := names_of [need _ _ _]). set (N1 := names_of (flat_map _ ss)). set (N2 := names_of (flat_map _ vs)).
  set (N3 := names_of (flat_map _ ms)). set (N4 := names_of (flat_map _ rs)).
  assert (Rd : forall (opt : bool) l n s, (opt = false -> In n l) -> errs l (check_part opt (read b e st n s))).
  { intros opt l n s I. apply errs_part. intros E. eapply errs_mono; [|apply errs_read]. intros m [<-|[]]. auto. }
  apply errs_try; [eapply errs_mono; [|apply errs_read]; intros m [<-|[]]; left; auto|]. intros _.
  apply errs_try.
  { apply (errs_mono N1); [intros m I; rewrite !in_app_iff; tauto|]. apply errs_each. intros r I. apply Rd. intros E.
    unfold N1. eapply names_flat; [exact I|]. rewrite E. left; auto. }
  intros xs. apply errs_try.
  { apply (errs_mono N2); [intros m I; rewrite !in_app_iff; tauto|]. apply errs_each. intros r I. apply Rd. intros E.
    unfold N2. eapply names_flat; [exact I|]. rewrite E. left; auto. }
  intros xv. apply errs_try.
  { apply (errs_mono N3); [intros m I; rewrite !in_app_iff; tauto|]. apply errs_each. intros r I. unfold open_multi.
    apply errs_try; [apply Rd; intros E; unfold N3; eapply names_flat; [exact I|]; rewrite E; left; auto|]. intros y.
    apply errs_try; [apply Rd; intros E; unfold N3; eapply names_flat; [exact I|]; rewrite E; right; left; auto|]. intros y'. apply errs_ok. }
  intros xm. apply errs_try.
  { apply (errs_mono N4); [intros m I; rewrite !in_app_iff; tauto|]. apply errs_each. intros r I. apply Rd. intros E.
    unfold N4. eapply names_flat; [exact I|]. rewrite E. left; auto. }
  intros xr. apply errs_try; [|intros xu; apply errs_ok].
  eapply errs_mono; [intros m I; rewrite !in_app_iff; right; right; right; right; right; exact I|].
  clear N0 N1 N2 N3 N4 Rd. induction IH as [|[[n a'] opt] l Ha IH IH']; [apply errs_ok|]. rewrite names_app.
  apply errs_try.
  { eapply errs_mono; [intros m I; apply in_or_app; left; exact I|]. apply errs_part. intros ->. cbn [need_if].
    intros w x w' E. unfold mbind in E. destruct (subdir st n w) as [[st'| | |] w1]; try discriminate. eapply Ha. exact E. }
  intros y. apply errs_try; [|intros ys; apply errs_ok].
  eapply errs_mono; [intros m I; apply in_or_app; right; exact I|]. exact IH'.
Qed.

(** * A wrong schema, a missing schema *)
Lemma wrong_signature_found b e st name expected w n w' : maps_ok w ->
  read b e st name expected w = (Ret (Er (EWrongSignature n)), w') ->
  n = name /\ exists sc, finds st w (schema_name name) (Some sc) /\ sc <> expected.
Proof.
  intros M R. destruct (read_cases _ _ _ _ _ _ _ _ M R) as (_ & [(k & E & _)|[(E & _)|[(E & _)|(c & sc & _ & F & E)]]]); try discriminate.
  unfold checked, check_resource in E. revert E.
  repeat match goal with
  | |- context [obind ?m ?f] => destruct m as [?v| | |] eqn:?; cbn [obind]; try discriminate
  | |- context [if negb (bytes_eqb ?x ?y) then _ else _] => destruct (bytes_eqb x y) eqn:Eb; cbn [negb]
  | |- context [if ?c then _ else _] => destruct c; [discriminate|]
  end; try discriminate.
  all: intros [= ->]; split; [reflexivity|]; exists sc; split; [exact F|]; intros ->; 
  unfold sl_bytes, whole in Eb; cbn [sl_mem sl_len] in Eb; unfold len in Eb; rewrite Nat2Z.id, firstn_all in Eb; 
  rewrite (proj2 (bytes_eqb_eq expected expected) eq_refl) in Eb; discriminate.
Qed.

Lemma missing_not_found b e base name expected w : let st := FileStorage 0 base in
  present st (schema_name name) w = false ->
  (exists c, c <> [] /\ w_files w (res_key st name) = Some c) \/ present st name w = false ->
  fresh_read b e base name expected w = Ret (Er (EIo KNotFound name)).
Proof.
  intros st Ns H. rewrite <- read_during_still. unfold read_during. fold st.
  assert (PE : forall k, fst (path_exists k (restart w)) = Ret (on_disk k w)) by reflexivity.
  rewrite !PE. change (on_disk (res_key st (schema_name name)) w = false) in Ns.
  destruct H as [(c & Nc & Fc)|N].
  - replace (on_disk (res_key st name) w) with true by (unfold on_disk; rewrite Fc; reflexivity). cbn [obind negb].
    assert (Em : exists sl, fst (mmap_read 0 (res_path st name) (restart w)) = Ret (Ok sl)).
    { unfold mmap_read. cbn [w_maps restart]. unfold syscall, next_fault, mbind. cbn [w_faults restart w_files].
      change (key_of (res_path st name)) with (res_key st name). rewrite Fc.
      assert (len c =? 0 = false) as -> by (destruct c; [congruence|]; rewrite len_cons; pose proof (len_nonneg c); lia).
      unfold mapped, file_content. cbn [w_files set_maps restart]. rewrite Fc, Z.leb_refl. cbn. eauto. }
    destruct Em as (sl & ->). cbn [obind]. rewrite Ns. reflexivity.
  - change (on_disk (res_key st name) w = false) in N. rewrite N. reflexivity.
Qed.
