(** Facts about multivectors. *)
From Verif Require Import Base BaseFacts Codec CodecSpec CodecFacts Structs StructsSpec StructsFacts.
From Verif Require Import Views ViewsSpec ViewsFacts Storage PathFacts StorageSpec.
From Verif Require Import StorageFacts StorageMore StorageUse Writers WritersSpec HandleFacts EncodeFacts ElsewhereFacts.
From Verif Require Import ExtVecFacts ExtVecUse MultiViews MultiSpec MultiViewFacts MultiViewUse.
Local Open Scope list_scope.
Local Open Scope Z_scope.
Local Arguments firstn : simpl never.
Local Arguments skipn : simpl never.

(** * Names *)
Lemma sapp_length a b : String.length (a ++ b) = (String.length a + String.length b)%nat.
Proof. induction a; simpl; auto. Qed.

Lemma no_slash_app a b : no_slash (a ++ b) = no_slash a && no_slash b.
Proof. induction a; simpl; auto. rewrite IHa, andb_assoc. auto. Qed.

Lemma valid_index n : valid_name n -> valid_name (index_name n).
Proof.
  intros (A & B & C). unfold index_name. split; [rewrite no_slash_app, A; reflexivity|].
  split; intros H; apply (f_equal String.length) in H; rewrite sapp_length in H; simpl in H; lia.
Qed.

Lemma index_unrelated n : unrelated n (index_name n).
Proof.
  unfold unrelated, schema_name, index_name.
  split; [|split]; intros H; apply (f_equal String.length) in H; rewrite ?sapp_length in H; simpl in H; lia.
Qed.

Lemma index_cells st n : valid_name n ->
  (~ cells_of st (index_name n) (cell_at st n) /\ ~ cells_of st (index_name n) (cell_at st (schema_name n))) /\
  (~ cells_of st n (cell_at st (index_name n)) /\ ~ cells_of st n (cell_at st (schema_name (index_name n)))).
Proof.
  intros V. assert (V' := valid_index n V). assert (U := index_unrelated n). destruct U as (U1 & U2 & U3).
  split; apply unrelated_cells; auto; split; auto.
Qed.

(** * The schema of the index *)
Lemma utf8_app a : forall b, utf8_ok a = true -> utf8_ok (a ++ b) = utf8_ok b.
Proof.
  assert (H : forall n a b, (length a <= n)%nat -> utf8_ok a = true -> utf8_ok (a ++ b) = utf8_ok b).
  { intros n. induction n as [|n IH]; intros l b L H.
    - destruct l; [reflexivity|simpl in L; lia].
    - destruct l as [|x r]; [reflexivity|]. simpl in L. cbn [utf8_ok app] in *.
      destruct (x <? 128). { apply IH; auto. lia. }
      destruct ((194 <=? x) && (x <? 224)).
      { destruct r as [|y r]; [discriminate|]. cbn [app]. apply andb_true_iff in H. destruct H as (-> & H).
        simpl in L. apply IH; auto. lia. }
      destruct ((224 <=? x) && (x <? 240)).
      { destruct r as [|y [|z r]]; try discriminate. cbn [app]. apply andb_true_iff in H. destruct H as (-> & H).
        simpl in L. apply IH; auto. lia. }
      destruct ((240 <=? x) && (x <? 245)); [|discriminate].
      destruct r as [|y [|z [|u r]]]; try discriminate. cbn [app]. apply andb_true_iff in H. destruct H as (-> & H).
      simpl in L. apply IH; auto. lia. }
  intros b. apply (H (length a)). auto.
Qed.


Lemma index_schema_ok st schema : mv_schema_ok st schema -> schema_ok st (index_schema schema).
Proof.
  intros ((U & B & L & N) & L7). unfold index_schema. split; [rewrite !utf8_app; auto; rewrite utf8_app; auto|].
  split; [apply bytes_ok_app; split; [|apply bytes_ok_app; split; auto]; repeat constructor; unfold is_byte; cbn; lia|].
  split; [rewrite !len_app; change (len (str "index(")) with 6; change (len (str ")")) with 1; lia|].
  intros _ H. discriminate.
Qed.

(** * The builder *)
Lemma item_encodes_bytes ts bytes x : wf_vdesc ts -> item_encodes ts bytes x -> bytes_ok bytes.
Proof.
  intros (Hwf & _) ((Ht & _) & m & -> & B & _). constructor; auto.
  rewrite Forall_forall in Hwf. apply (Hwf (nth (fst x) ts (0, mkStruct 0 []))). apply nth_In. auto.
Qed.

Lemma bucket_bytes ts bytes l : wf_vdesc ts -> bucket_of ts bytes l -> bytes_ok bytes.
Proof.
  intros Hwf (ms & -> & F). induction F as [|m x ms l E F IH]; simpl; [constructor|].
  apply bytes_ok_app. split; auto. eapply item_encodes_bytes; eauto.
Qed.

Lemma buckets_bytes ts bs l : wf_vdesc ts -> Forall2 (bucket_of ts) bs l -> bytes_ok (concat bs).
Proof.
  intros Hwf F. induction F as [|m x bs l E F IH]; simpl; [constructor|].
  apply bytes_ok_app. split; auto. eapply bucket_bytes; eauto.
Qed.

Lemma items_size_nonneg ts items : wf_vdesc ts -> items_ok ts items -> 0 <= items_size ts items.
Proof.
  intros Hwf H. induction H as [|x items (Ht & _) _ IH]; cbn [items_size]; [lia|].
  destruct (wf_vdesc_nth ts (fst x) Hwf Ht) as (_ & (Hp & _)). lia.
Qed.

Lemma item_add_ok b e ts t sets rest : wf_vdesc ts -> (t < length ts)%nat -> sets_ok (v_struct ts t) sets ->
  len rest + 8 + (1 + s_size (v_struct ts t)) <= isize_max ->
  exists bytes, item_add b e ts t sets (rest ++ zeros 8) = Ret (rest ++ bytes ++ zeros 8) /\
    item_encodes ts bytes (item_value ts (t, sets)) /\ len bytes = 1 + s_size (v_struct ts t).
Proof.
  intros Hwf Ht Hs HL. destruct (wf_vdesc_nth ts t Hwf Ht) as (Htag & Hst). pose proof Hst as (Hpos & _).
  set (s := v_struct ts t) in *. pose proof (len_nonneg rest).
  assert (Hnn : len (rest ++ zeros 8) = len rest + 8) by (rewrite len_app; reflexivity).
  unfold item_add. fold s. unfold uadd, usub. rewrite Hnn.
  rewrite wrap_ok by (unfold usize_limit, isize_max in *; lia). cbn [obind].
  rewrite wrap_ok by (unfold usize_limit, isize_max in *; lia). cbn [obind].
  rewrite resize_grow by lia. cbn [obind]. unfold PADDING_SIZE.
  rewrite wrap_ok by (unfold usize_limit, isize_max in *; lia). cbn [obind].
  replace (len rest + 8 - 8) with (len rest) by lia.
  replace (len rest <? len (rest ++ zeros (1 + s_size s) ++ zeros 8)) with true by (rewrite !len_app, !len_zeros by lia; lia).
  cbn [negb]. rewrite <- (zeros_app 1 (s_size s)) by lia. change (zeros 1) with [0].
  unfold mem_write. rewrite !len_app, !len_zeros by lia. change (len [v_tag ts t]) with 1. change (len [0]) with 1.
  replace ((0 <=? len rest) && (len rest + 1 <=? len rest + (1 + s_size s + 8))) with true by lia. cbn [obind].
  replace (Z.to_nat (len rest)) with (length rest) by (unfold len; lia).
  rewrite (firstn_app_exact rest) by auto. change (length [v_tag ts t]) with 1%nat.
  rewrite <- (skipn_add 1 (length rest)), (skipn_app_exact rest) by auto.
  replace (skipn 1 (([0] ++ zeros (s_size s)) ++ zeros 8)) with (zeros (s_size s) ++ zeros 8) by reflexivity.
  rewrite wrap_ok by (unfold usize_limit, isize_max in *; lia). cbn [obind].
  rewrite wrap_ok by (unfold usize_limit, isize_max in *; lia). cbn [obind].
  replace (1 + (len rest + 8) - 8) with (len rest + 1) by lia.
  unfold slice_from. rewrite slice_range_ok by (simpl; rewrite ?len_cons, ?len_app, ?len_cons, ?len_app, ?len_zeros; lia).
  cbn [obind]. rewrite (app_assoc rest). replace (len rest + 1) with (len (rest ++ [v_tag ts t])) by (rewrite len_app; reflexivity).
  destruct (handle_good b e s sets (rest ++ [v_tag ts t]) (zeros (s_size s)) (zeros 8) (zero_record s)) as (m' & E' & G');
    auto using bytes_ok_zeros, good_zero.
  rewrite E'. exists (v_tag ts t :: m'). split; [rewrite <- app_assoc; reflexivity|].
  split; [|rewrite len_cons, (good_len _ _ _ G'); auto].
  split; [split; auto; apply record_ok_sets; auto; apply record_ok_zero; auto|].
  exists m'. split; auto. apply G'.
Qed.

Lemma items_add_ok b e ts items : wf_vdesc ts -> items_ok ts items -> forall rest,
  len rest + 8 + items_size ts items <= isize_max ->
  exists bytes, items_add b e ts items (rest ++ zeros 8) = Ret (rest ++ bytes ++ zeros 8) /\
    bucket_of ts bytes (map (item_value ts) items) /\ len bytes = items_size ts items.
Proof.
  intros Hwf Hok. induction Hok as [|[t sets] items (Ht & Hs) Hok IH]; intros rest HL.
  - exists []. split; auto. split; [|reflexivity]. exists []. split; [reflexivity|constructor].
  - cbn [items_size fst snd] in *. assert (Hn := items_size_nonneg ts items Hwf Hok).
    destruct (item_add_ok b e ts t sets rest Hwf Ht Hs ltac:(lia)) as (by1 & E1 & I1 & L1).
    cbn [items_add]. rewrite E1. cbn [obind]. rewrite app_assoc.
    destruct (IH (rest ++ by1)) as (by2 & E2 & (ms & -> & F) & L2); [rewrite len_app; lia|].
    rewrite E2. exists (by1 ++ concat ms). split; [rewrite <- !app_assoc; auto|]. split; [|rewrite len_app; lia].
    exists (by1 :: ms). split; auto. cbn [map]. constructor; auto.
Qed.

(** * Where the buckets start *)
Fixpoint bounds (a : Z) (bs : list (list Z)) : list Z :=
  match bs with [] => [] | x :: r => a :: bounds (a + len x) r end.

Lemma bounds_length bs : forall a, length (bounds a bs) = length bs.
Proof. induction bs; intros; simpl; auto. Qed.

Lemma bounds_snoc bs x : forall a, bounds a (bs ++ [x]) = bounds a bs ++ [a + len (concat bs)].
Proof.
  induction bs as [|y bs IH]; intros a; cbn [bounds app concat]; [rewrite len_nil, Z.add_0_r; auto|].
  rewrite IH, len_app. f_equal. f_equal. f_equal. lia.
Qed.

(** * Invariant *)
(** [offs] are the entries of the index, [l] the buckets, [bs] their bytes;
    [clean]: no write has failed so far. *)
Definition mv_inv (st : storage) (name : string) (schema : list Z) (ts : vdesc) (size bits : Z) (v : multi_vec) (w : world)
    (offs : list Z) (l : list (list value)) (bs : list (list Z)) (clean : bool) : Prop :=
  exists Wi ri ci Wd rd cd,
    ev_inv st (index_name name) (index_schema schema) (index_struct size bits) (mv_index v) w (map (fun x => [x]) offs) Wi ri ci /\
    mv_data v = rd ++ zeros 8 /\ mv_flushed v = len Wd /\ bytes_ok cd /\
    Wd ++ rd = concat bs /\ Forall2 (bucket_of ts) bs l /\
    writing st name schema (mv_handle v) w Wd cd /\
    (clean = true -> ci = zeros 8 ++ Wi /\ cd = zeros 8 ++ Wd).

Definition mv_cells (st : storage) (name : string) (c : cell) : Prop := cells_of st name c \/ cells_of st (index_name name) c.

Definition mv_unsealed (st : storage) (name : string) (schema : list Z) (w : world) : Prop :=
  unsealed st name schema w /\ unsealed st (index_name name) (index_schema schema) w.

Lemma eq_mono (P : cell -> Prop) st n w w' : P (cell_at st n) -> step (eq (cell_at st n)) w w' -> step P w w'.
Proof. intros H. apply step_mono. intros c <-. auto. Qed.

Lemma mv_cells_data st n : mv_cells st n (cell_at st n).
Proof. left. left. auto. Qed.
Lemma mv_cells_index st n : mv_cells st n (cell_at st (index_name n)).
Proof. right. left. auto. Qed.

Lemma ev_inv_unsealed st name schema s v w l W rest c : ev_inv st name schema s v w l W rest c -> unsealed st name schema w.
Proof. intros (_ & _ & B & _ & H). eapply writing_unsealed; eauto. Qed.

Lemma unsealed_touches P st name schema w w' : touches P w w' -> ~ P (cell_at st name) -> ~ P (cell_at st (schema_name name)) ->
  unsealed st name schema w -> unsealed st name schema w'.
Proof.
  intros T N1 N2 (c & B & Z0 & Bc & S). exists c. split; [erewrite bytes_at_touches; eauto|]. split; auto. split; auto.
  erewrite bytes_at_touches; eauto.
Qed.

Section Env.
Variables (b : build) (e : endian) (lim size bits : Z) (ts : vdesc) (st : storage) (name : string) (schema : list Z).
Hypotheses (Hwi : wf_struct (index_struct size bits)) (Hwf : wf_vdesc ts) (Hn : valid_name name).
Let is := index_struct size bits.
Notation inv := (mv_inv st name schema ts size bits).

Lemma index_step_data w w' : step (eq (cell_at st (index_name name))) w w' ->
  forall h W c, writing st name schema h w W c -> writing st name schema h w' W c.
Proof.
  intros S h W c Hw. destruct (index_cells st name Hn) as ((A & B) & _).
  eapply writing_touches; [apply S| | |exact Hw].
  - intros H. apply A. left. auto.
  - intros H. apply B. left. auto.
Qed.

Lemma data_step_index w w' : step (eq (cell_at st name)) w w' ->
  forall v l W r c, ev_inv st (index_name name) (index_schema schema) is v w l W r c ->
    ev_inv st (index_name name) (index_schema schema) is v w' l W r c.
Proof.
  intros S v l W r c Hi. destruct (index_cells st name Hn) as (_ & (A & B)).
  eapply ev_inv_touches; [apply S| | |exact Hi].
  - intros H. apply A. left. auto.
  - intros H. apply B. left. auto.
Qed.

Lemma index_step_unsealed w w' : step (eq (cell_at st (index_name name))) w w' -> unsealed st name schema w ->
  unsealed st name schema w'.
Proof.
  intros S. destruct (index_cells st name Hn) as ((A & B) & _). eapply unsealed_touches; [apply S| |].
  - intros H. apply A. left. auto.
  - intros H. apply B. left. auto.
Qed.

Lemma data_step_unsealed w w' : step (eq (cell_at st name)) w w' -> unsealed st (index_name name) (index_schema schema) w ->
  unsealed st (index_name name) (index_schema schema) w'.
Proof.
  intros S. destruct (index_cells st name Hn) as (_ & (A & B)). eapply unsealed_touches; [apply S| |].
  - intros H. apply A. left. auto.
  - intros H. apply B. left. auto.
Qed.

Lemma mv_inv_unsealed v w offs l bs clean : inv v w offs l bs clean -> mv_unsealed st name schema w.
Proof.
  intros (Wi & ri & ci & Wd & rd & cd & Hi & _ & _ & Bd & _ & _ & Hw & _).
  split; [eapply writing_unsealed; eauto|eapply ev_inv_unsealed; eauto].
Qed.

(** * flush *)
Lemma mv_flush_cases v w offs l bs clean o w' : inv v w offs l bs clean -> len (concat bs) + 8 <= isize_max ->
  mv_flush b v w = (o, w') ->
  step (eq (cell_at st name)) w w' /\
  ((exists v', o = Ret (Ok tt, v') /\ mv_data v' = zeros 8 /\ inv v' w' offs l bs clean) \/
   (is_file st = true /\ w_faults w <> [] /\
     ((exists k v', o = Ret (Er k, v') /\ inv v' w' offs l bs false) \/
      (o = Crash /\ mv_unsealed st name schema w')))).
Proof.
  intros Hi HL R. assert (U := mv_inv_unsealed _ _ _ _ _ _ Hi).
  destruct Hi as (Wi & ri & ci & Wd & rd & cd & Hi & E1 & E2 & Bd & Ec & F & Hw & Cl).
  assert (HB := buckets_bytes _ _ _ Hwf F). rewrite <- Ec in HB, HL. apply bytes_ok_app in HB. rewrite len_app in HL.
  pose proof (len_nonneg Wd). pose proof (len_nonneg rd).
  unfold mv_flush, mbind, lift in R. rewrite E1 in R.
  destruct (flush_slice b rd) as (Eu & d & Ed & Bdd); [lia|]. rewrite Eu, Ed, Bdd in R.
  destruct (handle_write b (mv_handle v) rd w) as [o1 w1] eqn:Eh.
  assert (H64 : len Wd + len rd < 2 ^ 64) by (unfold isize_max in HL; lia).
  destruct (handle_write_cases _ _ _ _ _ _ _ _ _ _ _ Hw H64 Eh) as (S1 & X).
  destruct X as [(h' & -> & Hw')|(Hfile & Hf & d1 & d2 & Er & X)].
  - unfold uadd in R. rewrite E2, wrap_ok in R by (unfold usize_limit, isize_max in *; lia).
    cbn in R. unfold mret in R. injection R as <- <-. split; auto. left. eexists. split; [reflexivity|]. split; [reflexivity|].
    exists Wi, ri, ci, (Wd ++ rd), [], (cd ++ rd). cbn [mv_index mv_data mv_flushed mv_handle].
    split; [eapply data_step_index; eauto|]. split; [reflexivity|]. split; [rewrite len_app; auto|].
    split; [apply bytes_ok_app; split; auto; apply HB|]. split; [rewrite app_nil_r; auto|]. split; auto. split; auto.
    intros Hc. destruct (Cl Hc) as (-> & ->). rewrite <- app_assoc. auto.
  - destruct X as [(k & h' & -> & Hw')|(-> & Bp)].
    + unfold mret in R. injection R as <- <-. split; auto. right. split; auto. split; auto. left. exists k. eexists. split; [reflexivity|].
      exists Wi, ri, ci, Wd, rd, (cd ++ d1). cbn [mv_index mv_data mv_flushed mv_handle].
      split; [eapply data_step_index; eauto|]. split; auto. split; auto.
      destruct HB as (_ & HB). rewrite Er in HB. apply bytes_ok_app in HB.
      split; [apply bytes_ok_app; split; auto; apply HB|]. split; auto. split; auto. split; auto. discriminate.
    + injection R as <- <-. split; auto. right. split; auto. split; auto. right. split; auto. split.
      * destruct HB as (_ & HB). rewrite Er in HB. apply bytes_ok_app in HB.
        exists (cd ++ d1). split; auto. split; [|split; [apply bytes_ok_app; split; auto; apply HB|]].
        -- destruct (writing_loose _ _ _ _ _ _ _ Hw) as (Z0 & Lc & _). rewrite firstn8_app; auto. lia.
        -- rewrite (step_schema _ _ _ _ S1). eapply writing_schema; eauto.
      * eapply data_step_unsealed; [exact S1|apply U].
Qed.

(** * add_to_index *)
Lemma add_to_index_step v w x o w' :
  obind (uadd b (mv_flushed v) (len (mv_data v))) (fun y => usub b y PADDING_SIZE) = Ret x ->
  mv_add_to_index b e lim size bits v w = (o, w') ->
  exists o1, ev_step b e lim is (EGrow [(0%nat, x)]) (mv_index v) w = (o1, w') /\
    (forall i, o1 = Ret (true, i) -> o = Ret (Ok tt, mkMV i (mv_data v) (mv_handle v) (mv_flushed v))) /\
    (forall i, o1 = Ret (false, i) -> exists k, o = Ret (Er k, mkMV i (mv_data v) (mv_handle v) (mv_flushed v))) /\
    (o1 = Crash -> o = Crash).
Proof.
  intros Hx R. unfold mv_add_to_index in R. unfold ev_step. unfold mbind at 1. unfold mbind at 1 in R. fold is in R.
  destruct (ev_grow b lim is (mv_index v) w) as [[[[p|k] i]| | |] w1].
  - unfold mbind at 1 in R. unfold lift at 1 in R. destruct (uadd b (mv_flushed v) (len (mv_data v))) as [y| | |]; try discriminate.
    unfold mbind at 1 in R. unfold lift at 1 in R. cbn [obind] in Hx. rewrite Hx in R.
    unfold mbind in *. destruct (ev_set b e is [(0%nat, x)] p i w1) as [[i2| | |] w2]; unfold mret in *; injection R as <- <-;
      eexists; split; try reflexivity; repeat split; intros; try discriminate; try congruence.
  - unfold mret in *. injection R as <- <-. eexists. split; [reflexivity|]. repeat split; intros; try discriminate.
    injection H as <-. eauto.
  - injection R as <- <-. eexists. split; [reflexivity|]. repeat split; intros; try discriminate.
  - injection R as <- <-. eexists. split; [reflexivity|]. repeat split; intros; try discriminate.
  - injection R as <- <-. eexists. split; [reflexivity|]. repeat split; intros; try discriminate.
Qed.

Lemma mv_index_cases v w offs l bs clean o w' : inv v w offs l bs clean ->
  len (concat bs) < 2 ^ bits -> len (concat bs) + 8 <= isize_max ->
  (Z.of_nat (length offs) + 1) * size + 8 <= isize_max ->
  mv_add_to_index b e lim size bits v w = (o, w') ->
  step (eq (cell_at st (index_name name))) w w' /\
  ((exists v', o = Ret (Ok tt, v') /\ mv_data v' = mv_data v /\ inv v' w' (offs ++ [len (concat bs)]) l bs clean) \/
   (is_file st = true /\ w_faults w <> [] /\
     ((exists k v', o = Ret (Er k, v') /\ inv v' w' offs l bs false) \/
      (o = Crash /\ mv_unsealed st name schema w')))).
Proof.
  intros Hi Hb HL HI R. assert (U := mv_inv_unsealed _ _ _ _ _ _ Hi).
  destruct Hi as (Wi & ri & ci & Wd & rd & cd & Hi & E1 & E2 & Bd & Ec & F & Hw & Cl).
  pose proof (len_nonneg Wd). pose proof (len_nonneg rd).
  set (x := len (concat bs)) in *. assert (Hx : x = len Wd + len rd) by (subst x; rewrite <- Ec, len_app; auto).
  assert (Hsum : obind (uadd b (mv_flushed v) (len (mv_data v))) (fun y => usub b y PADDING_SIZE) = Ret x).
  { rewrite E1, E2, len_app. change (len (zeros 8)) with 8. unfold uadd, usub, PADDING_SIZE.
    rewrite wrap_ok by (unfold usize_limit, isize_max in *; lia). cbn [obind].
    rewrite wrap_ok by (unfold usize_limit, isize_max in *; lia). f_equal. lia. }
  destruct (add_to_index_step v w x o w' Hsum R) as (o1 & E & O1 & O2 & O3).
  assert (Hs : sets_ok is [(0%nat, x)]).
  { constructor; [|constructor]. subst is. cbn. split; [lia|]. unfold in_range. cbn. lia. }
  destruct (ev_step_cases b e lim is _ _ _ _ _ _ _ _ _ _ _ _ Hwi Hs Hi ltac:(rewrite map_length; exact HI) E) as (S1 & X).
  split; auto. destruct X as [(v' & W' & r' & c' & -> & I' & Cl')|(Hfile & Hf & X)].
  - left. eexists. split; [apply O1; reflexivity|]. split; [reflexivity|].
    exists W', r', c', Wd, rd, cd. cbn [mv_index mv_data mv_flushed mv_handle].
    split. { rewrite map_app. exact I'. }
    split; auto. split; auto. split; auto. split; auto. split; auto.
    split; [eapply index_step_data; eauto|]. intros Hc. destruct (Cl Hc). auto.
  - right. split; auto. split; auto. destruct X as [(v' & c' & -> & I')|(-> & U')].
    + left. destruct (O2 _ eq_refl) as (k & ->). exists k. eexists. split; [reflexivity|].
      exists Wi, ri, c', Wd, rd, cd. cbn [mv_index mv_data mv_flushed mv_handle].
      split; auto. split; auto. split; auto. split; auto. split; auto. split; auto.
      split; [eapply index_step_data; eauto|]. discriminate.
    + right. split; auto. split; auto. eapply index_step_unsealed; [exact S1|apply U].
Qed.

(** * grow, and the items of the new bucket *)
Lemma mv_step_cases items v w l bs clean o w' : items_ok ts items -> inv v w (bounds 0 bs) l bs clean ->
  len (concat bs) < 2 ^ bits -> len (concat bs) + items_size ts items + 8 <= isize_max ->
  (Z.of_nat (length bs) + 1) * size + 8 <= isize_max ->
  mv_step b e lim size bits ts (MGrow items) v w = (o, w') ->
  step (mv_cells st name) w w' /\
  ((exists v' bytes, o = Ret (true, v') /\ len bytes = items_size ts items /\
      inv v' w' (bounds 0 (bs ++ [bytes])) (l ++ [map (item_value ts) items]) (bs ++ [bytes]) clean) \/
   (is_file st = true /\ w_faults w <> [] /\
     ((exists v', o = Ret (false, v') /\ inv v' w' (bounds 0 bs) l bs false) \/
      (o = Crash /\ mv_unsealed st name schema w')))).
Proof.
  intros Hit Hi Hb HL HI R. assert (In := items_size_nonneg ts items Hwf Hit). pose proof (len_nonneg (concat bs)).
  (* the part after the flush *)
  assert (Rest : forall v1 w1 o1 w2, inv v1 w1 (bounds 0 bs) l bs clean ->
    mbind (mv_add_to_index b e lim size bits v1) (fun r : result unit io_kind * multi_vec => match r with
       | (Ok _, v) => let! v := mv_add b e ts items v in mret (true, v)
       | (Er _, v) => mret (false, v) end) w1 = (o1, w2) ->
    step (eq (cell_at st (index_name name))) w1 w2 /\
    ((exists v' bytes, o1 = Ret (true, v') /\ len bytes = items_size ts items /\
      inv v' w2 (bounds 0 (bs ++ [bytes])) (l ++ [map (item_value ts) items]) (bs ++ [bytes]) clean) \/
     (is_file st = true /\ w_faults w1 <> [] /\
     ((exists v', o1 = Ret (false, v') /\ inv v' w2 (bounds 0 bs) l bs false) \/
      (o1 = Crash /\ mv_unsealed st name schema w2))))).
  { intros v1 w1 o1 w2 I1 R1. unfold mbind at 1 in R1.
    destruct (mv_add_to_index b e lim size bits v1 w1) as [o2 w3] eqn:E2.
    destruct (mv_index_cases v1 w1 _ l bs clean o2 w3 I1 Hb ltac:(lia) ltac:(rewrite bounds_length; auto) E2) as (S2 & X).
    destruct X as [(v2 & -> & _ & I2)|(Hfile & Hf & [(k & v2 & -> & I2)|(-> & U)])].
    - destruct I2 as (Wi & ri & ci & Wd & rd & cd & Hi2 & E1 & E3 & Bd & Ec & F & Hw & Cl).
      assert (Hc := len_app Wd rd). rewrite Ec in Hc. pose proof (len_nonneg Wd).
      destruct (items_add_ok b e ts items Hwf Hit rd ltac:(lia)) as (bytes & Ea & Bk & Lb).
      unfold mv_add, mbind, lift in R1. rewrite E1, Ea in R1. unfold mret in R1. injection R1 as <- <-.
      split; auto. left. eexists. exists bytes. split; [reflexivity|]. split; auto.
      exists Wi, ri, ci, Wd, (rd ++ bytes), cd. cbn [mv_index mv_data mv_flushed mv_handle].
      split; [rewrite bounds_snoc, Z.add_0_l; auto|]. split; [rewrite <- app_assoc; auto|]. split; auto. split; auto.
      split; [rewrite concat_snoc, app_assoc, Ec; auto|]. split; [apply Forall2_app; auto|]. auto.
    - unfold mret in R1. injection R1 as <- <-. split; auto. right. split; auto. split; auto. left. eauto.
    - injection R1 as <- <-. split; auto. right. split; auto. }
  unfold mv_step, mv_grow in R. unfold mbind at 1 in R. unfold mbind at 1 in R.
  destruct (lim <? len (mv_data v)).
  - destruct (mv_flush b v w) as [o1 w1] eqn:Ef.
    destruct (mv_flush_cases _ _ _ _ _ _ _ _ Hi ltac:(lia) Ef) as (S1 & X).
    assert (SS1 := eq_mono _ _ _ _ _ (mv_cells_data st name) S1).
    destruct X as [(v1 & -> & _ & I1)|(Hfile & Hf & X)].
    + destruct (Rest v1 w1 o w' I1 R) as (S2 & X).
      split; [eapply step_trans; [exact SS1|eapply eq_mono; [apply mv_cells_index|exact S2]]|].
      destruct X as [X|(Hfile & Hf & X)]; [left; auto|right]. split; auto. split; auto. intros H1. apply Hf, S1; auto.
    + split; [|right; split; auto; split; auto; destruct X as [(k & v1 & -> & I1)|(-> & U)]].
      * destruct X as [(k & v1 & -> & I1)|(-> & U)]; unfold mret in R; injection R as <- <-; auto.
      * unfold mret in R. injection R as <- <-. left. eauto.
      * injection R as <- <-. auto.
  - unfold mret in R at 1. destruct (Rest v w o w' Hi R) as (S2 & X).
    split; auto. eapply eq_mono; [apply mv_cells_index|exact S2].
Qed.
End Env.
