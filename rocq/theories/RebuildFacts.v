(** Facts for C108. *)
From Verif Require Import Base BaseFacts Codec CodecSpec Structs StructsSpec Views ViewsSpec ViewsFacts Storage PathFacts StorageSpec StorageFacts StorageMore StorageUse DirFacts.
From Verif Require Import Writers WritersSpec MultiViews MultiSpec Archives RedoSpec RedoFacts AgainSpec AgainFacts RerunSpec RerunFacts RebuildSpec.
Local Open Scope list_scope.
Local Open Scope Z_scope.

(** Making a builder: nothing happens, or the signature is written. *)
Lemma exists_disk id base n w o w1 : exists_ (FileStorage id base) n w = (o, w1) -> same_disk w w1 /\ (o = Crash \/ exists x, o = Ret x).
Proof.
  cbn [exists_]. unfold path_exists, mbind, syscall, next_fault. destruct (w_faults w) as [|[] r]; intros [= <- <-]; (split; [split; reflexivity|eauto]).
Qed.
Lemma build_all_eq b e lim a st l w : build_all b e lim a st l w =
  match exists_ st (signature_name (ad_name a)) w with
  | (Ret true, w1) => (Ret false, w1)
  | (Ret false, w1) => put_all b e lim st (signature a :: l) w1
  | (Panic, w1) => (Panic, w1)
  | (UB, w1) => (UB, w1)
  | (Crash, w1) => (Crash, w1)
  end.
Proof.
  cbn [put_all put signature]. unfold build_all, builder_new, create_archive, mtry, mbind.
  destruct (exists_ st (signature_name (ad_name a)) w) as [[[|]| | |] w1]; try reflexivity.
  destruct (write b e st (signature_name (ad_name a)) (ad_schema a) [] w1) as [[[[]|k]| | |] w2]; reflexivity.
Qed.
Lemma build_all_spared b e lim a id base l fs w o w' : build_all b e lim a (FileStorage id base) l (set_faults fs w) = (o, w') ->
  spared base (build_files a l) w w'.
Proof.
  rewrite build_all_eq. destruct (exists_ (FileStorage id base) (signature_name (ad_name a)) (set_faults fs w)) as [o1 w1] eqn:E.
  apply exists_disk in E as (S & _). assert (S' : spared base (build_files a l) w w1) by (apply spared_disk; exact S).
  destruct o1 as [[|]| | |]; intros R; try (injection R as <- <-; exact S').
  eapply spared_trans; [exact S'|]. rewrite (same_faults w1 _ eq_refl) in R. exact (put_all_spared _ _ _ _ _ _ _ _ _ _ R).
Qed.
Lemma history_spared base names w w1 : history base names w w1 -> spared base names w w1.
Proof.
  induction 1 as [w1 H|w1 fs b e lim a id l o w2 w3 T IH I R H|w1 n w2 T IH I F D]; [apply spared_disk; exact H| |].
  - eapply spared_trans; [exact IH|]. eapply spared_trans; [eapply spared_incl; [exact I|eapply build_all_spared; exact R]|apply spared_disk; exact H].
  - eapply spared_trans; [exact IH|]. unfold spared, closed, is_dir. rewrite F, D. split; [|auto 6].
    intros k N. apply kupd_other. intros ->. apply N. exists n. auto.
Qed.
Lemma rebuild b e lim id base a l w w1 : let st := FileStorage id base in let names := build_files a l in
  valid_name (ad_name a) -> Forall (fun r => valid_name (name_of r)) l -> NoDup names -> Forall (resource_ok st) l -> tree_ok w ->
  (forall n, In n names -> is_dir (file_of base n) w = false) -> base_ready base w ->
  history base names w w1 -> w_faults w1 = [] -> new_object id w1 -> w_files w1 (file_of base (signature_name (ad_name a))) = None ->
  exists w2, build_all b e lim a st l w1 = (Ret true, w2) /\ Forall (in_place base w2) (signature a :: l) /\
    (forall k, (forall n, In n names -> k <> file_of base n) -> w_files w2 k = w_files w k) /\
    forall x, is_dir x w2 = is_dir x w || is_prefix_of x (key_of base).
Proof.
  intros st names Va V ND K T P B H Hf N E. set (n := signature_name (ad_name a)) in *.
  assert (Vn : valid_name n) by (apply valid_app; auto).
  assert (V' : Forall (fun r => valid_name (name_of r)) (signature a :: l)) by (constructor; auto).
  assert (Vs := all_files_valid _ V'). assert (Sp := history_spared _ _ _ _ H).
  assert (K' : Forall (resource_ok st) (signature a :: l)) by (constructor; [exact I|exact K]).
  destruct (rerun_spared b e lim id base (signature a :: l) names w w1) as (w2 & R & Pl & Fs & _ & D); auto; [discriminate|].
  exists w2. split; [|split; [exact Pl|split; [|exact D]]].
  - rewrite build_all_eq. fold n. rewrite exists_eq by exact Hf. unfold st. cbn [present]. rewrite file_of_any. unfold on_disk. rewrite E.
    assert (D1 : is_dir (file_of base n) w1 = false).
    { destruct (is_dir (file_of base n) w1) eqn:X; [|reflexivity]. destruct Sp as (_ & _ & Dd & _). destruct (Dd _ X) as [Y|Y].
      - rewrite P in Y; [discriminate|]. left. reflexivity.
      - rewrite not_prefix in Y by auto. discriminate. }
    unfold is_dir in D1. rewrite D1. exact R.
  - intros k Hk. apply Fs. intros (m & I1 & E1). apply (Hk m); [|exact E1]. apply in_app_or in I1. destruct I1; assumption.
Qed.
Lemma rebuild_present b e lim id base a l w : w_faults w = [] -> w_files w (file_of base (signature_name (ad_name a))) <> None ->
  build_all b e lim a (FileStorage id base) l w = (Ret false, w).
Proof.
  intros Hf E. rewrite build_all_eq. rewrite exists_eq by exact Hf. cbn [present]. rewrite file_of_any. unfold on_disk.
  destruct (w_files w (file_of base (signature_name (ad_name a)))); [reflexivity|congruence].
Qed.

(** * Creating an archive that is there (C109) *)
Lemma is_prefix_of_trans x k l : is_prefix_of x k = true -> is_prefix_of k l = true -> is_prefix_of x l = true.
Proof.
  unfold is_prefix_of. intros H1 H2. apply andb_prop in H1 as (A1 & B1). apply andb_prop in H2 as (A2 & B2).
  apply eqb_prop in A1, A2. apply comps_eqb_eq in B1, B2. rewrite A1, A2, eqb_reflx. cbn [andb]. apply comps_eqb_eq.
  assert (L : (List.length (snd x) <= List.length (snd k))%nat) by (rewrite B1; rewrite firstn_length; lia).
  rewrite B1 at 1. rewrite B2 at 1. rewrite firstn_firstn. f_equal. lia.
Qed.
Lemma create_present b e id base aname schema w o w' : let st := FileStorage id base in let n := signature_name aname in
  w_files w (file_of base n) <> None -> create_archive b e st aname schema w = (o, w') ->
  match w_faults w with
  | [] => o = Ret (Er (EIo KAlreadyExists n)) /\ w' = w
  | FOk :: r => o = Ret (Er (EIo KAlreadyExists n)) /\ w' = set_faults r w
  | FCrash _ :: r => o = Crash /\ w' = set_faults r w
  | (FErr _ | FShort _ _) :: r => o = fst ((let? _ :=(fun k => EIo k n) write b e st n schema [] in mret (Ok tt)) (set_faults r w)) /\
      w' = snd (write b e st n schema [] (set_faults r w))
  end.
Proof.
  intros st n E R. subst st. set (st := FileStorage id base) in R |- *. assert (D : forall fs, on_disk (res_key (FileStorage id base) n) (set_faults fs w) = true).
  { intros fs. rewrite file_of_any. unfold on_disk. cbn [set_faults w_files]. destruct (w_files w (file_of base n)); [reflexivity|congruence]. }
  unfold create_archive in R. fold n in R. change (exists_ st n) with (path_exists (res_key (FileStorage id base) n)) in R.
  unfold mtry in *. unfold mbind at 1 in R. unfold path_exists, mbind at 1, syscall, next_fault in R.
  destruct (w_faults w) as [|f r] eqn:Hf.
  - assert (D' := D []). rewrite <- (same_faults w [] Hf) in D'. rewrite D' in R. injection R as <- <-. auto.
  - destruct f as [|k|m k|m].
    + rewrite D in R. injection R as <- <-. auto.
    + cbn in R. unfold mbind in *. destruct (write b e st n schema [] (set_faults r w)) as [[[[]|x]| | |] w2]; injection R as <- <-; auto.
    + cbn in R. unfold mbind in *. destruct (write b e st n schema [] (set_faults r w)) as [[[[]|x]| | |] w2]; injection R as <- <-; auto.
    + injection R as <- <-. auto.
Qed.
Lemma overwrite_program b e lim id base a l k w : let st := FileStorage id base in let names := build_files a l in
  valid_name (ad_name a) -> Forall (fun r => valid_name (name_of r)) l -> NoDup names -> Forall (resource_ok st) l -> tree_ok w ->
  (forall n, In n names -> is_dir (file_of base n) w = false) -> base_ready base w -> new_object id w ->
  w_faults w = [FErr k] ->
  exists w2, build_all b e lim a st l w = (Ret true, w2) /\ Forall (in_place base w2) (signature a :: l) /\
    forall k, (forall n, In n names -> k <> file_of base n) -> w_files w2 k = w_files w k.
Proof.
  intros st names Va V ND K T P B N Hf.
  assert (Vn : valid_name (signature_name (ad_name a))) by (apply valid_app; auto).
  assert (V' : Forall (fun r => valid_name (name_of r)) (signature a :: l)) by (constructor; auto).
  assert (Vs := all_files_valid _ V').
  assert (K' : Forall (resource_ok st) (signature a :: l)) by (constructor; [exact I|exact K]).
  destruct (rerun_spared b e lim id base (signature a :: l) names w (set_faults [] w)) as (w2 & R & Pl & Fs & _ & D); auto;
    [discriminate|apply spared_disk; split; reflexivity|].
  exists w2. split; [|split; [exact Pl|]].
  - rewrite build_all_eq. unfold st. cbn [exists_]. unfold path_exists, mbind, syscall, next_fault. rewrite Hf. exact R.
  - intros x Hx. apply Fs. intros (m & I1 & E1). apply (Hx m); [|exact E1]. apply in_app_or in I1. destruct I1; assumption.
Qed.
Lemma overwrite_only b e id base aname schema fs w o w' x :
  create_archive b e (FileStorage id base) aname schema (set_faults fs w) = (o, w') ->
  x <> file_of base (signature_name aname) -> x <> file_of base (schema_name (signature_name aname)) -> w_files w' x = w_files w x.
Proof.
  intros R N1 N2. unfold create_archive, mtry, mbind in R. set (n := signature_name aname) in *.
  destruct (exists_ (FileStorage id base) n (set_faults fs w)) as [o1 w1] eqn:E. apply exists_disk in E as ((F & _) & _). cbn in F.
  destruct o1 as [[|]| | |]; try (injection R as <- <-; rewrite F; reflexivity).
  destruct (write b e (FileStorage id base) n schema [] w1) as [o2 w2] eqn:W. rewrite (same_faults w1 _ eq_refl) in W.
  apply write_keeps in W as (A & _). rewrite <- F, <- (A x N1 N2).
  destruct o2 as [[[]|k]| | |]; injection R as <- <-; reflexivity.
Qed.
