(** Without I/O failures and with nothing in the way, all calls on a builder
    succeed. *)
From Verif Require Import Base BaseFacts Codec CodecSpec CodecFacts Structs StructsSpec StructsFacts Views ViewsSpec ViewsFacts.
From Verif Require Import Storage PathFacts StorageSpec StorageFacts StorageMore StorageUse Writers WritersSpec HandleFacts EncodeFacts.
From Verif Require Import ElsewhereFacts ExtVecFacts ExtVecUse MultiViews MultiSpec MultiViewFacts MultiViewUse MultiVecFacts MultiVecUse.
From Verif Require Import Archives ArchiveSpec ArchiveFacts BuilderSpec BuilderFacts BuilderUse DirFacts.
Local Open Scope list_scope.
Local Open Scope Z_scope.
Local Arguments firstn : simpl never.

Lemma dirs_apart_eq a : dirs_apart a <->
  forall x, In x (ad_subs a) -> ~ In (fst (fst x)) (part_names a) /\ dirs_apart (snd (fst x)).
Proof.
  destruct a as [name schema ss vs ms rs subs]. cbn [dirs_apart ad_subs].
  set (P := part_names _). clearbody P. induction subs as [|[[n a'] o] l IH].
  - split; [intros _ x []|auto].
  - rewrite IH. split.
    + intros [H H'] x [<-|I]; auto.
    + intros H. split; [exact (H _ (or_introl eq_refl))|]. intros x I. apply H. right. exact I.
Qed.

(** * Descriptors by path *)
Definition sub_of (a : adesc) (n : string) : option adesc :=
  option_map (fun s => snd (fst s)) (find (fun s => String.eqb (fst (fst s)) n) (ad_subs a)).
Fixpoint find_path (a : adesc) (q : list string) : option adesc :=
  match q with
  | [] => Some a
  | n :: q => match sub_of a n with Some a' => find_path a' q | None => None end
  end.
Lemma find_path_app a q r : find_path a (q ++ r) = match find_path a q with Some a' => find_path a' r | None => None end.
Proof. revert a. induction q as [|n q IH]; intros a; simpl; auto. destruct (sub_of a n); auto. Qed.
Lemma sub_of_In a n a' : sub_of a n = Some a' -> exists o, In (n, a', o) (ad_subs a).
Proof.
  unfold sub_of. destruct (find _ _) as [[[m x] o]|] eqn:E; [|discriminate]. cbn. intros [= <-].
  apply find_some in E as [I E]. cbn in E. apply String.eqb_eq in E. subst m. eauto.
Qed.
Lemma sub_of_nth file a k s : wf_archive file a -> nth_error (ad_subs a) k = Some s -> sub_of a (fst (fst s)) = Some (snd (fst s)).
Proof.
  intros Wf Hk. apply wf_eq in Wf as (_ & _ & _ & _ & _ & _ & _ & ND & _). apply nth_error_In in Hk. unfold sub_of.
  induction (ad_subs a) as [|x l IH]; [destruct Hk|]. cbn [map] in ND. inversion ND as [|? ? N ND']; subst.
  cbn [find]. destruct (String.eqb_spec (fst (fst x)) (fst (fst s))) as [E|E].
  - destruct Hk as [->|I]; [reflexivity|]. exfalso. apply N. rewrite E. apply (in_map (fun s => fst (fst s))). exact I.
  - destruct Hk as [->|I]; [congruence|auto].
Qed.

Section Root.
Variables (file0 : bool) (a0 : adesc) (base0 : string).
Hypotheses (W0 : wf_archive file0 a0) (D0 : dirs_apart a0).
Let kb := key_of base0.
Definition at_key (q : list string) : key := (fst kb, snd kb ++ q).
Definition is_file_path (q : list string) : Prop := exists p a f n, q = p ++ [f] /\ find_path a0 p = Some a /\
  In n (part_names a) /\ (f = n \/ f = schema_name n).

Lemma path_wf q : forall a, find_path a0 q = Some a -> wf_archive file0 a /\ dirs_apart a.
Proof.
  revert W0 D0. generalize a0. induction q as [|n q IH]; intros a1 Wa Da a; cbn [find_path].
  - intros [= <-]. auto.
  - destruct (sub_of a1 n) as [a2|] eqn:E; [|discriminate]. apply sub_of_In in E as [o I].
    apply IH; [apply (sub_valid _ _ _ Wa I)|]. exact (proj2 (proj1 (dirs_apart_eq _) Da _ I)).
Qed.

Lemma file_not_dir q a : is_file_path q -> find_path a0 q = Some a -> False.
Proof.
  intros (p & a1 & f & n & -> & Hp & In_ & Hf). rewrite find_path_app, Hp. cbn [find_path].
  destruct (sub_of a1 f) as [a2|] eqn:E; [|discriminate]. intros _. apply sub_of_In in E as [o I].
  destruct (path_wf p a1 Hp) as [Wa Da]. destruct (proj1 (dirs_apart_eq _) Da _ I) as [N _]. cbn in N.
  destruct Hf as [->|Hf]; [auto|].
  assert (Id : identifier f).
  { apply wf_eq in Wa as (_ & _ & _ & _ & _ & _ & _ & _ & Wu). rewrite Forall_forall in Wu. apply (Wu _ I). }
  destruct Id as (_ & _ & Nd). subst f. clear - Nd. unfold schema_name in Nd.
  assert (H : StorageSpec.no_dot (n ++ ".schema") = false); [|congruence].
  clear. induction n as [|c n IH]; [reflexivity|]. cbn. destruct (Ascii.eqb c "."%char); auto.
Qed.

(** What may be on disk. *)
Definition room (w : world) : Prop :=
  w_faults w = [] /\ (forall n, w_files w (fst kb, firstn n (snd kb)) = None) /\
  (forall q, q <> [] -> w_dirs w (at_key q) = true -> exists a, find_path a0 q = Some a) /\
  (forall q, q <> [] -> w_files w (at_key q) <> None -> is_file_path q).

Lemma at_key_inj q r : at_key q = at_key r -> q = r.
Proof. unfold at_key. intros H. injection H as H. apply app_inv_head in H. exact H. Qed.

Lemma empty_room id w : empty_place (FileStorage id base0) w -> room w.
Proof.
  intros (F & N & E). split; [exact F|]. split; [exact N|]. split; intros q Hq H.
  - destruct q as [|n q]; [congruence|]. destruct (E (at_key (n :: q))) as [_ X]; [exists n, q; reflexivity|congruence].
  - destruct q as [|n q]; [congruence|]. destruct (E (at_key (n :: q))) as [X _]; [exists n, q; reflexivity|congruence].
Qed.

Lemma room_ready q a id base f n w : room w -> find_path a0 q = Some a -> key_of base = at_key q -> In n (part_names a) ->
  f = n \/ f = schema_name n -> ready (FileStorage id base) f w.
Proof.
  intros (_ & R1 & R2 & R3) Hq Hb In_ Hf. destruct (path_wf q a Hq) as [Wa _].
  assert (Vn := part_valid _ _ _ Wa In_). assert (Vf : valid_name f) by (destruct Hf as [->| ->]; auto using valid_schema).
  split.
  - assert (E : res_key (FileStorage id base) f = at_key (q ++ [f])).
    { rewrite res_key_valid by exact Vf. cbn [st_base]. rewrite Hb. unfold at_key. cbn [snd].
      assert (fst (key_of base) = fst kb) by (rewrite Hb; reflexivity). cbn in H. rewrite H. rewrite <- app_assoc. reflexivity. }
    rewrite E. unfold is_dir. apply orb_false_iff. split.
    + destruct (w_dirs w _) eqn:X; [|reflexivity]. exfalso. destruct (R2 (q ++ [f])) as [a' H]; [destruct q; discriminate|exact X|].
      eapply file_not_dir; [|exact H]. exists q, a, f, n. auto.
    + unfold at_key. cbn [snd]. rewrite !app_length. cbn [length]. apply Nat.eqb_neq. lia.
  - left. split; [exact Vf|]. right. intros m. rewrite Hb. unfold at_key. cbn [fst snd]. rewrite firstn_app.
    destruct (Nat.le_gt_cases m (length (snd kb))) as [L|L].
    + replace (m - length (snd kb))%nat with 0%nat by lia. rewrite firstn_O, app_nil_r. apply R1.
    + rewrite (firstn_all2 (snd kb)) by lia. set (j := (m - length (snd kb))%nat).
      destruct (w_files w _) as [c|] eqn:X; [|reflexivity]. exfalso.
      destruct (firstn j q) as [|x r] eqn:Er.
      * specialize (R1 (length (snd kb))). rewrite firstn_all in R1. rewrite app_nil_r in X. congruence.
      * change (fst kb, snd kb ++ x :: r) with (at_key (x :: r)) in X.
        assert (FP := R3 (x :: r) ltac:(discriminate) ltac:(congruence)).
        rewrite <- (firstn_skipn j q), Er, find_path_app in Hq.
        destruct (find_path a0 (x :: r)) as [a'|] eqn:Y; [|discriminate]. eapply file_not_dir; eauto.
Qed.

Lemma prefix_at_key r q : is_prefix_of (at_key r) (at_key q) = true -> exists t, q = r ++ t.
Proof.
  unfold is_prefix_of, at_key. cbn [fst snd]. intros H. apply andb_prop in H as [_ H]. apply comps_eqb_eq in H.
  rewrite app_length, firstn_app in H. rewrite (firstn_all2 (snd kb)) in H by lia. apply app_inv_head in H.
  replace (length (snd kb) + length r - length (snd kb))%nat with (length r) in H by lia.
  exists (skipn (length r) q). rewrite H at 1. symmetry. apply firstn_skipn.
Qed.

Lemma room_keep q a id base (P : cell -> Prop) w w' : find_path a0 q = Some a -> key_of base = at_key q ->
  (forall c, P c -> exists n, In n (part_names a) /\ cells_of (FileStorage id base) n c) ->
  (forall k, ~ P (CFile k) -> w_files w' k = w_files w k) -> dirs_within (key_of base) w w' ->
  w_faults w' = [] -> room w -> room w'.
Proof.
  intros Hq Hb HP T D F' (F & R1 & R2 & R3). destruct (path_wf q a Hq) as [Wa _].
  assert (Key : forall n, valid_name n -> res_key (FileStorage id base) n = at_key (q ++ [n])).
  { intros n V. rewrite res_key_valid by exact V. cbn [st_base]. rewrite Hb. unfold at_key. cbn [snd].
    assert (fst (key_of base) = fst kb) by (rewrite Hb; reflexivity). cbn in H. rewrite H. rewrite <- app_assoc. reflexivity. }
  assert (Cell : forall k, P (CFile k) -> exists n f, In n (part_names a) /\ (f = n \/ f = schema_name n) /\ k = at_key (q ++ [f])).
  { intros k Hk. destruct (HP _ Hk) as (n & In_ & C). assert (V := part_valid _ _ _ Wa In_).
    destruct C as [C|C]; injection C as ->; [exists n, n|exists n, (schema_name n)]; rewrite Key; auto using valid_schema. }
  split; [exact F'|]. split; [|split].
  - intros n. rewrite T; [apply R1|]. intros Hk. apply Cell in Hk as (m & f & _ & _ & Hk).
    unfold at_key in Hk. injection Hk as Hk. apply (f_equal (@length _)) in Hk. rewrite firstn_length, !app_length in Hk.
    cbn [length] in Hk. lia.
  - intros r Hr Hd. destruct (proj1 D _ Hd) as [X|X]; [auto|]. rewrite Hb in X. apply prefix_at_key in X as [t ->].
    rewrite find_path_app in Hq. destruct (find_path a0 r); [eauto|discriminate].
  - intros r Hr Hx. destruct (w_files w (at_key r)) as [c|] eqn:X; [apply R3; [exact Hr|congruence]|].
    assert (Hk : ~ ~ P (CFile (at_key r))) by (intros N; apply Hx; rewrite T by exact N; exact X).
    (* decidable: is it one of the files of [a]? *)
    assert (Dec : {exists n, In n (part_names a) /\ (r = q ++ [n] \/ r = q ++ [schema_name n])} +
                  {~ exists n, In n (part_names a) /\ (r = q ++ [n] \/ r = q ++ [schema_name n])}).
    { destruct (Exists_dec (fun n => r = q ++ [n] \/ r = q ++ [schema_name n]) (part_names a)) as [Y|Y].
      - intros n. destruct (list_eq_dec string_dec r (q ++ [n])); [left; auto|].
        destruct (list_eq_dec string_dec r (q ++ [schema_name n])); [left; auto|right; tauto].
      - left. apply Exists_exists in Y. exact Y.
      - right. intros Z. apply Y, Exists_exists. exact Z. }
    destruct Dec as [(n & In_ & [->| ->])|N].
    + exists q, a, n, n. auto.
    + exists q, a, (schema_name n), n. auto 6.
    + exfalso. apply Hk. intros Y. apply Cell in Y as (n & f & In_ & Hf & E). apply at_key_inj in E. subst r.
      apply N. exists n. split; [exact In_|]. destruct Hf as [->| ->]; auto.
Qed.

(** * Steps *)
Definition located (file : bool) (a : adesc) (st : storage) (w : world) : Prop :=
  file = true -> exists q, find_path a0 q = Some a /\ key_of (st_base st) = at_key q /\ room w.

Lemma located_ready a st n w : located (is_file st) a st w -> In n (part_names a) -> unblocked st n w.
Proof.
  intros L In_. destruct st as [id base|id base]; [split; exact I|].
  destruct (L eq_refl) as (q & Hq & Hk & R). split; eapply room_ready; eauto.
Qed.
Lemma located_faults a st w : located (is_file st) a st w -> is_file st = true -> w_faults w = [].
Proof. intros L F. destruct (L F) as (q & _ & _ & R). apply R. Qed.

Lemma room_step {A} a st (m : M A) (P : cell -> Prop) w o w' : located (is_file st) a st w ->
  m w = (o, w') -> touches P w w' -> (forall c, P c -> exists n, In n (part_names a) /\ cells_of st n c) ->
  (is_file st = true -> within (key_of (st_base st)) m) -> calm w w' -> is_file st = true -> room w'.
Proof.
  intros L R T HP D C F. destruct (L F) as (q & Hq & Hk & Rm). specialize (D F w). rewrite R in D. cbn [snd] in D.
  destruct st as [id base|id base]; [discriminate|].
  eapply (room_keep q a id base P w w'); eauto; [apply T|apply C; apply Rm].
Qed.

Lemma builder_new_progress b e a st w : wf_archive (is_file st) a -> maps_ok w -> unused_storage st w ->
  (is_file st = true -> w_faults w = []) -> unblocked st (signature_name (ad_name a)) w ->
  exists w', builder_new b e a st w = (Ret (Ok st), w').
Proof.
  intros Wf MO [Hid Un] Hf [R1 R2]. unfold builder_new, create_archive.
  assert (Wf' := Wf). apply wf_eq in Wf' as (Hi & Hs & _). set (n := signature_name (ad_name a)) in *.
  assert (V : valid_name n) by (apply signature_valid; exact Hi).
  assert (Ex : exists_ st n w = (Ret false, w)).
  { destruct st as [id base|id base].
    - unfold exists_. rewrite (proj1 (Un _)), (proj2 (Un _)). reflexivity.
    - rewrite exists_eq by (apply Hf; reflexivity). f_equal. f_equal. unfold present, on_disk.
      destruct Un as [_ Un]. rewrite Un by (apply (under_res id); exact V). destruct R1 as [R1 _]. exact R1. }
  assert (St : forall m, valid_name m -> unused st m w).
  { intros m Vm. destruct st as [id base|id base]; simpl.
    - rewrite (proj1 (Un _)), (proj2 (Un _)). auto.
    - apply (proj1 Un). }
  assert (exists w', write b e st n (ad_schema a) [] w = (Ret (Ok tt), w')) as [w' W].
  { destruct st as [id base|id base].
    - apply write_mem_progresses; apply fresh_start, St; auto using valid_schema.
    - apply write_progresses; auto; apply fresh_start, St; auto using valid_schema. }
  exists w'. unfold mtry, mbind. rewrite Ex, W. reflexivity.
Qed.

Lemma write_room b e a st n schema d w : located (is_file st) a st w -> In n (part_names a) -> blank st n w ->
  exists w', write b e st n schema d w = (Ret (Ok tt), w') /\ (is_file st = true -> room w').
Proof.
  intros L Pn [[U1 U2] _]. destruct (located_ready a st n w L Pn) as [R1 R2].
  assert (exists w', write b e st n schema d w = (Ret (Ok tt), w')) as [w' W].
  { destruct (is_file st) eqn:F.
    - apply write_progresses; auto; try (apply fresh_start; assumption). rewrite <- F in L. apply (located_faults a st w L F).
    - destruct st as [id base|id base]; [|discriminate]. apply write_mem_progresses; apply fresh_start; assumption. }
  exists w'. split; [exact W|]. assert (T := write_touches _ _ _ _ _ _ _ _ _ W).
  eapply (room_step a st (write b e st n schema d) (cells_of st n)); eauto; try apply T.
  intros F. apply within_write; auto.
Qed.

Lemma mret_eq {A} (x : A) w : mret x w = (Ret x, w).
Proof. reflexivity. Qed.

Lemma bstep_progress file b e lim o : forall a st A s w A', wf_archive file a -> is_file st = file -> maps_ok w ->
  sim a st A s w -> may file a A o A' -> located file a st w ->
  exists s' w', bstep b e lim a o s w = (Ret (true, s'), w') /\ (file = true -> room w').
Proof.
  induction o as [k m|k v|k|k sets|k|k|k items|k|k d|k|k o IH]; intros a st A s w A' Wf Fl M Hs Hm L;
    inversion Hm; subst; cbn [bstep];
    assert (Est : bs_st s = st) by (apply sim_eq in Hs; tauto); rewrite ?Est;
    assert (Ws := Wf); apply wf_eq in Ws; destruct Ws as (_ & _ & _ & Ws & Wv & Wm & Wr & _ & Wu);
    rewrite Forall_forall in Ws, Wv, Wm, Wr, Wu;
    match goal with H : nth_error _ _ = Some _ |- _ => assert (I := nth_error_In _ _ H); rename H into Hk end;
    match goal with
    | H : pl_structs _ _ = _ |- _ => rename H into Hp
    | H : pl_vecs _ _ = _ |- _ => rename H into Hp
    | H : pl_muls _ _ = _ |- _ => rename H into Hp
    | H : pl_raws _ _ = _ |- _ => rename H into Hp
    | H : pl_subs _ _ = _ |- _ => rename H into Hp
    end;
    try match goal with
    | H : sets_ok _ _ |- _ => rename H into Hok
    | H : items_ok _ _ |- _ => rename H into Hok
    | H : may _ _ _ _ _ |- _ => match type of Hm with ?T => match type of H with T => fail 1 | _ => rename H into Hok end end
    end;
    rewrite ?Hk; cbn [with_some];
    assert (S := Hs); apply sim_eq in S; destruct S as (_ & Hid & S & U).
  - (* struct *)
    specialize (S (SStruct k)). cbn [slot_ok] in S. rewrite Hk in S. cbn [at_slot] in S. rewrite Hp in S.
    assert (Pn : In (tr_name r) (part_names a)) by (apply (slot_part a (SStruct k)); cbn [slot_names]; rewrite Hk; left; auto).
    unfold set_struct. replace (_ <=? _) with true by (symmetry; apply Z.leb_le; assumption).
    destruct (write_room b e a st _ (tr_schema r) (firstn (Z.to_nat (s_size (tr_struct r))) m) w L Pn S) as (w' & W & R).
    exists s, w'. split; [|exact R]. unfold mbind. rewrite W. reflexivity.
  - (* vector *)
    specialize (S (SVec k)). cbn [slot_ok] in S. rewrite Hk in S. cbn [at_slot] in S. rewrite Hp in S.
    assert (Pn : In (tr_name r) (part_names a)) by (apply (slot_part a (SVec k)); cbn [slot_names]; rewrite Hk; left; auto).
    destruct (write_room b e a st _ (tr_schema r) (sl_bytes (av_as_bytes v)) w L Pn S) as (w' & W & R).
    exists s, w'. split; [|exact R]. unfold set_vector, mbind. rewrite W. reflexivity.
  - (* start vector *)
    specialize (S (SVec k)). cbn [slot_ok] in S. rewrite Hk in S. cbn [at_slot] in S. rewrite Hp in S. destruct S as [Fr _].
    assert (Pn : In (tr_name r) (part_names a)) by (apply (slot_part a (SVec k)); cbn [slot_names]; rewrite Hk; left; auto).
    unfold start_vector, mbind.
    destruct (create_external_vector b e st (tr_name r) (tr_schema r) w) as [o1 w1] eqn:R.
    destruct (create_ev_cases b e st _ _ (tr_struct r) w _ w1 Fr R) as [T [(v' & -> & Hv)|(F & _ & N & _)]].
    2:{ exfalso. apply N; [eapply located_faults; eauto|eapply located_ready; eauto]. }
    eexists _, w1. split; [reflexivity|].
    eapply (room_step a st (create_external_vector b e st (tr_name r) (tr_schema r)) (cells_of st (tr_name r))); eauto; try apply T.
    intros F. apply within_create_ev; auto.
  - (* grow *)
    specialize (S (SVec k)). cbn [slot_ok] in S. rewrite Hk in S. cbn [at_slot] in S. rewrite Hp in S. cbn [vec_slot] in S.
    destruct S as (Sz & v & W & rest & Ev & Hv). rewrite Ev. cbn [with_some]. unfold mbind.
    assert (Pn : In (tr_name r) (part_names a)) by (apply (slot_part a (SVec k)); cbn [slot_names]; rewrite Hk; left; auto).
    destruct (Wv r I) as [[_ So] Wst].
    assert (Ll : Z.of_nat (length (elements (tr_struct r) l)) = Z.of_nat (length l)) by (rewrite elements_length; reflexivity).
    destruct (ev_step b e lim (tr_struct r) (EGrow sets) v w) as [o1 w1] eqn:R.
    destruct (ev_step_cases b e lim _ sets st _ _ v w _ W rest _ _ w1 Wst Hok Hv ltac:(rewrite Ll; lia) R)
      as [T [(v2 & W2 & r2 & c2 & -> & Hv2 & Hc)|(F & N & _)]].
    2:{ exfalso. apply N. eapply located_faults; eauto. }
    eexists _, w1. split; [reflexivity|].
    eapply (room_step a st (ev_step b e lim (tr_struct r) (EGrow sets) v) (eq (cell_at st (tr_name r)))); eauto; try apply T.
    + intros c <-. exists (tr_name r). split; [exact Pn|left; reflexivity].
    + intros F. apply within_ev_step; auto.
  - (* close *)
    specialize (S (SVec k)). cbn [slot_ok] in S. rewrite Hk in S. cbn [at_slot] in S. rewrite Hp in S. cbn [vec_slot] in S.
    destruct S as (Sz & v & W & rest & Ev & Hv). rewrite Ev. cbn [with_some]. unfold mbind.
    assert (Pn : In (tr_name r) (part_names a)) by (apply (slot_part a (SVec k)); cbn [slot_names]; rewrite Hk; left; auto).
    destruct (Wv r I) as [[_ So] Wst].
    assert (Ll : Z.of_nat (length (elements (tr_struct r) l)) = Z.of_nat (length l)) by (rewrite elements_length; reflexivity).
    destruct (ev_inv_bytes _ _ _ _ _ _ _ _ _ _ Hv) as (BW & Br & Lb). rewrite Ll in Lb.
    destruct (ev_close b e v w) as [o1 w1] eqn:R.
    destruct (ev_close_cases b e st _ _ _ v w _ W rest _ _ w1 Hv M (schema_ok_like _ st _ eq_refl So) ltac:(lia) R)
      as (T & Cm & M1 & [(F & N & _)|(B1 & B2 & F1 & F2 & C)]).
    { exfalso. apply N. eapply located_faults; eauto. }
    assert (Lc : len ((zeros 8 ++ W) ++ rest) + 8 <= isize_max).
    { unfold len. rewrite !app_length, !Nat2Z.inj_add. change (Z.of_nat (length (zeros 8))) with 8. fold (len W) (len rest). lia. }
    destruct C as [(r' & -> & _ & C)|C]; [|lia].
    destruct C as [y ->].
    { destruct (is_file st) eqn:F; [right|left; reflexivity]. rewrite <- F in L. eapply located_faults; eauto. }
    { symmetry. apply app_assoc. }
    eexists _, w1. split; [reflexivity|].
    eapply (room_step a st (ev_close b e v) (cells_of st (tr_name r))); eauto.
    intros F. apply within_ev_close; auto.
  - (* start multi *)
    specialize (S (SMul k)). cbn [slot_ok] in S. rewrite Hk in S. cbn [at_slot] in S. rewrite Hp in S. destruct S as [[Fi _] [Fr _]].
    destruct (Wm r I) as (Wi & En & So & Wis & Wts & Sz). rewrite En in Fi.
    assert (Vn := identifier_valid _ Wi).
    assert (Pn : In (mr_name r) (part_names a) /\ In (index_name (mr_name r)) (part_names a)).
    { rewrite <- En. split; apply (slot_part a (SMul k)); cbn [slot_names]; rewrite Hk; simpl; auto. }
    unfold start_multi, mbind.
    destruct (create_multi_vector b e st (mr_name r) (mr_schema r) w) as [o1 w1] eqn:R.
    destruct (create_mv_cases b e (mr_size r) (mr_bits r) (mr_types r) st (mr_name r) (mr_schema r) Vn w _ w1 (conj Fr Fi) R)
      as [T [(v' & -> & Hv)|(F & _ & N & _)]].
    2:{ exfalso. apply N; [eapply located_faults; eauto|]. split; eapply located_ready; eauto; apply Pn. }
    eexists _, w1. split; [reflexivity|].
    eapply (room_step a st (create_multi_vector b e st (mr_name r) (mr_schema r)) (mv_cells st (mr_name r))); eauto; try apply T.
    + intros c [C|C]; eexists; (split; [|exact C]); apply Pn.
    + intros F. apply within_create_mv; auto.
  - (* multi grow *)
    specialize (S (SMul k)). cbn [slot_ok] in S. rewrite Hk in S. cbn [at_slot] in S. rewrite Hp in S. cbn [mul_slot] in S.
    destruct S as (S1 & S2 & S3 & v & bs & Ev & Lb & Hv). rewrite Ev. cbn [with_some]. unfold mbind.
    destruct (Wm r I) as (Wi & En & So & Wis & Wts & Sz). assert (Vn := identifier_valid _ Wi).
    assert (Pn : In (mr_name r) (part_names a) /\ In (index_name (mr_name r)) (part_names a)).
    { rewrite <- En. split; apply (slot_part a (SMul k)); cbn [slot_names]; rewrite Hk; simpl; auto. }
    assert (Ll := mv_inv_length _ _ _ _ _ _ _ _ _ _ _ _ Hv). unfold buckets in Ll. rewrite map_length in Ll.
    rewrite buckets_size_snoc in *.
    destruct (mv_step b e lim (mr_size r) (mr_bits r) (mr_types r) (MGrow items) v w) as [o1 w1] eqn:R.
    destruct (mv_step_cases b e lim (mr_size r) (mr_bits r) (mr_types r) st (mr_name r) (mr_schema r) Wis Wts Vn
                items v w _ bs true _ w1 Hok Hv ltac:(lia) ltac:(lia) ltac:(rewrite <- Ll; lia) R)
      as [T [(v2 & bytes & -> & Lby & Hv2)|(F & N & _)]].
    2:{ exfalso. apply N. eapply located_faults; eauto. }
    eexists _, w1. split; [reflexivity|].
    eapply (room_step a st (mv_step b e lim (mr_size r) (mr_bits r) (mr_types r) (MGrow items) v) (mv_cells st (mr_name r))); eauto; try apply T.
    + intros c [C|C]; eexists; (split; [|exact C]); apply Pn.
    + intros F. apply within_mv_step; auto.
  - (* multi close *)
    specialize (S (SMul k)). cbn [slot_ok] in S. rewrite Hk in S. cbn [at_slot] in S. rewrite Hp in S. cbn [mul_slot] in S.
    destruct S as (S1 & S2 & S3 & v & bs & Ev & Lb & Hv). rewrite Ev. cbn [with_some]. unfold mbind.
    destruct (Wm r I) as (Wi & En & So & Wis & Wts & Sz). assert (Vn := identifier_valid _ Wi).
    assert (Pn : In (mr_name r) (part_names a) /\ In (index_name (mr_name r)) (part_names a)).
    { rewrite <- En. split; apply (slot_part a (SMul k)); cbn [slot_names]; rewrite Hk; simpl; auto. }
    assert (Ll := mv_inv_length _ _ _ _ _ _ _ _ _ _ _ _ Hv). unfold buckets in Ll. rewrite map_length in Ll.
    destruct (mv_close b e lim (mr_size r) (mr_bits r) v w) as [o1 w1] eqn:R.
    destruct (mv_close_cases b e lim (mr_size r) (mr_bits r) (mr_types r) st (mr_name r) (mr_schema r) Wis Wts Vn
                v w _ bs true _ w1 Hv M (mv_schema_ok_like _ st _ eq_refl So) ltac:(lia) ltac:(lia) ltac:(rewrite <- Ll; lia) R)
      as (T & Cm & M1 & [(F & N & _)|[[E _]|[[E _]|(r' & -> & _ & _ & C)]]]); try discriminate E.
    { exfalso. apply N. eapply located_faults; eauto. }
    destruct (C eq_refl) as (iv & d & ->).
    { destruct (is_file st) eqn:F; [right|left; reflexivity]. rewrite <- F in L. eapply located_faults; eauto. }
    eexists _, w1. split; [reflexivity|].
    eapply (room_step a st (mv_close b e lim (mr_size r) (mr_bits r) v) (mv_cells st (mr_name r))); eauto.
    + intros c [C'|C']; eexists; (split; [|exact C']); apply Pn.
    + intros F. apply within_mv_close; auto.
  - (* raw *)
    specialize (S (SRaw k)). cbn [slot_ok] in S. rewrite Hk in S. cbn [at_slot] in S. rewrite Hp in S.
    assert (Pn : In (rr_name r) (part_names a)) by (apply (slot_part a (SRaw k)); cbn [slot_names]; rewrite Hk; left; auto).
    destruct (write_room b e a st _ (rr_schema r) d w L Pn S) as (w' & W & R).
    exists s, w'. split; [|exact R]. unfold set_raw, mbind. rewrite W. reflexivity.
  - (* new sub-archive *)
    destruct st as [id base|id base]; [discriminate|]. cbn [is_file] in *.
    destruct (L eq_refl) as (q & Hq & Hkb & Rm). destruct (sub_valid _ _ _ Wf I) as [V Wx].
    assert (Hq' : find_path a0 (q ++ [fst (fst s0)]) = Some (snd (fst s0))).
    { rewrite find_path_app, Hq. cbn [find_path]. rewrite (sub_of_nth _ _ _ _ Wf Hk). reflexivity. }
    assert (Hk' : key_of (path_join base (fst (fst s0))) = at_key (q ++ [fst (fst s0)])).
    { rewrite key_join by exact V. cbn [st_base] in Hkb. unfold at_key in *.
      assert (E : fst (key_of base) = fst kb) by (rewrite Hkb; reflexivity). cbn in E. rewrite E, Hkb. cbn [snd].
      rewrite <- app_assoc. reflexivity. }
    specialize (U k s0 Hk). unfold sub_sim in U. rewrite Hp in U. simpl in U.
    set (wn := snd (file_new (path_join base (fst (fst s0))) w)).
    set (st' := FileStorage (w_next w) (path_join base (fst (fst s0)))).
    assert (Sb : sub_builder b e (FileStorage id base) s0 w = builder_new b e (snd (fst s0)) st' wn) by reflexivity.
    assert (Mn : maps_ok wn).
    { intros i p l. simpl. unfold nupd. destruct (Nat.eqb i (w_next w)); [discriminate|]. apply M. }
    assert (Un : unused_storage st' wn).
    { split; [simpl; lia|]. simpl. split; [intros p; rewrite nupd_same; reflexivity|exact U]. }
    assert (Rn : room wn) by exact Rm.
    assert (Ln : located (is_file st') (snd (fst s0)) st' wn) by (intros _; exists (q ++ [fst (fst s0)]); auto).
    destruct (builder_new_progress b e (snd (fst s0)) st' wn Wx Mn Un) as [w' W].
    { intros _. apply Rn. }
    { eapply located_ready; [exact Ln|]. left. reflexivity. }
    unfold mbind. rewrite Sb, W. eexists _, w'. split; [reflexivity|]. intros _.
    eapply (room_keep (q ++ [fst (fst s0)]) (snd (fst s0)) (w_next w) (path_join base (fst (fst s0)))
             (cells_of st' (signature_name (ad_name (snd (fst s0))))) wn w'); eauto.
    + intros c C. eexists. split; [left; reflexivity|exact C].
    + intros x Hx. unfold builder_new, create_archive, mtry in W.
      apply bind_ret in W as (y & w1 & W & W'). destruct y as [[]|y]; [|discriminate W']. injection W' as <-.
      apply bind_ret in W as (y & w2 & X & W).
      assert (E : w2 = wn).
      { rewrite exists_eq in X by apply Rn. injection X as _ <-. reflexivity. }
      subst w2. destruct y; [discriminate W|]. apply bind_ret in W as (z & w3 & W & W'').
      destruct z as [[]|z]; [|discriminate W'']. injection W'' as <-.
      destruct (write_touches _ _ _ _ _ _ _ _ _ W) as (T & _). apply T. exact Hx.
    + assert (D := within_create_archive (key_of (path_join base (fst (fst s0)))) b e st' eq_refl eq_refl (ad_name (snd (fst s0))) (ad_schema (snd (fst s0))) wn).
      unfold builder_new, mtry in W. apply bind_ret in W as (y & w1 & W & W'). destruct y as [[]|y]; [|discriminate W'].
      injection W' as <-. rewrite W in D. exact D.
    + unfold builder_new, create_archive, mtry in W.
      apply bind_ret in W as (y & w1 & W & W'). destruct y as [[]|y]; [|discriminate W']. injection W' as <-.
      apply bind_ret in W as (y & w2 & X & W).
      assert (E : w2 = wn).
      { rewrite exists_eq in X by apply Rn. injection X as _ <-. reflexivity. }
      subst w2. destruct y; [discriminate W|]. apply bind_ret in W as (z & w3 & W & W'').
      destruct z as [[]|z]; [|discriminate W'']. injection W'' as <-.
      apply (write_touches _ _ _ _ _ _ _ _ _ W). apply Rn.
  - (* in a sub-archive *)
    specialize (U k s0 Hk). unfold sub_sim in U. rewrite Hp in U. destruct U as (Fs & id' & s1 & Es & H1).
    rewrite Es. cbn [with_some]. destruct st as [id base|id base]; [discriminate|]. cbn [is_file] in *.
    destruct (sub_valid _ _ _ Wf I) as [V Wx]. destruct (L eq_refl) as (q & Hq & Hkb & Rm).
    destruct (IH _ _ _ _ _ _ Wx (eq_refl : is_file (FileStorage _ _) = true) M H1 Hok) as (s' & w' & R & Rm').
    { intros _. exists (q ++ [fst (fst s0)]). split; [|split; [|exact Rm]].
      - rewrite find_path_app, Hq. cbn [find_path]. rewrite (sub_of_nth _ _ _ _ Wf Hk). reflexivity.
      - cbn [st_base] in *. rewrite key_join by exact V. unfold at_key in *.
        assert (E : fst (key_of base) = fst kb) by (rewrite Hkb; reflexivity). cbn in E. rewrite E, Hkb. cbn [snd].
        rewrite <- app_assoc. reflexivity. }
    unfold mbind. rewrite R. eexists _, w'. split; [reflexivity|exact Rm'].
Qed.
End Root.

Lemma at_root base : key_of base = at_key base [].
Proof. unfold at_key. rewrite app_nil_r. destruct (key_of base); reflexivity. Qed.

Lemma brun_progress b e lim a st ops : wf_archive (is_file st) a -> dirs_apart a -> forall A A' s w,
  maps_ok w -> sim a st A s w -> history (is_file st) a A ops A' -> (is_file st = true -> room a (st_base st) w) ->
  exists s' w', brun b e lim a ops s w = (Ret (repeat true (length ops), s'), w') /\
    (is_file st = true -> room a (st_base st) w').
Proof.
  intros Wf Da. induction ops as [|o ops IH]; intros A A' s w M Hs Hh Rm; inversion Hh; subst.
  - exists s, w. split; [reflexivity|exact Rm].
  - destruct (bstep_progress (is_file st) a (st_base st) Wf Da (is_file st) b e lim o a st A s w A'0) as (s1 & w1 & R & Rm1); auto.
    { intros F. exists []. split; [reflexivity|]. split; [apply at_root|auto]. }
    destruct (bstep_ok _ b e lim o a st A s w A'0 s1 w1 Wf eq_refl M Hs H2 R) as (Hs1 & _ & M1).
    destruct (IH _ _ s1 w1 M1 Hs1 H4 Rm1) as (s' & w' & R' & Rm').
    exists s', w'. split; [|exact Rm']. cbn [brun repeat length]. unfold mbind. rewrite R. cbn [snd fst]. rewrite R'. reflexivity.
Qed.

Lemma build_progress b e lim a st w ops A : wf_archive (is_file st) a -> dirs_apart a -> maps_ok w ->
  unused_storage st w -> empty_place st w -> history (is_file st) a no_plan ops A ->
  exists w1 s' w2, builder_new b e a st w = (Ret (Ok st), w1) /\
    brun b e lim a ops (new_bstate st) w1 = (Ret (repeat true (length ops), s'), w2) /\
    (is_file st = true -> room a (st_base st) w2).
Proof.
  intros Wf Da M Un E H.
  assert (Rm : is_file st = true -> room a (st_base st) w).
  { destruct st as [id base|id base]; [discriminate|]. intros _. eapply empty_room. exact E. }
  assert (L : located a (st_base st) (is_file st) a st w).
  { intros F. exists []. split; [reflexivity|]. split; [apply at_root|auto]. }
  destruct (builder_new_progress b e a st w Wf M Un) as [w1 R].
  { intros F. apply Rm. exact F. }
  { eapply located_ready; eauto. left. reflexivity. }
  destruct (builder_new_ok _ b e a st w st w1 Wf eq_refl M Un R) as (_ & Hs & _ & M1).
  destruct (brun_progress b e lim a st ops Wf Da no_plan A (new_bstate st) w1 M1 Hs H) as (s' & w2 & R2 & Rm2); [|eauto 7].
  intros F. eapply (room_step (is_file st) a (st_base st) Wf Da a st (builder_new b e a st)
    (cells_of st (signature_name (ad_name a)))); eauto.
  - unfold builder_new, create_archive, mtry in R.
    apply bind_ret in R as (y & w3 & R & R'). destruct y as [[]|y]; [|discriminate R']. injection R' as <-.
    apply bind_ret in R as (y & w4 & X & R). rewrite exists_eq in X by (apply Rm, F). injection X as _ <-.
    destruct y; [discriminate R|]. apply bind_ret in R as (z & w5 & R & R'). destruct z as [[]|z]; [|discriminate R'].
    injection R' as <-. apply (write_touches _ _ _ _ _ _ _ _ _ R).
  - intros c C. eexists. split; [left; reflexivity|exact C].
  - intros _. unfold builder_new. apply within_try; [apply within_create_archive; auto|]. intros x. apply within_ret.
  - unfold builder_new, create_archive, mtry in R.
    apply bind_ret in R as (y & w3 & R & R'). destruct y as [[]|y]; [|discriminate R']. injection R' as <-.
    apply bind_ret in R as (y & w4 & X & R). rewrite exists_eq in X by (apply Rm, F). injection X as _ <-.
    destruct y; [discriminate R|]. apply bind_ret in R as (z & w5 & R & R'). destruct z as [[]|z]; [|discriminate R'].
    injection R' as <-. apply (write_touches _ _ _ _ _ _ _ _ _ R).
Qed.
