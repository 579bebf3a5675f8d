(** Facts about external vectors. *)
From Verif Require Import Base BaseFacts Codec CodecSpec CodecFacts Structs StructsSpec StructsFacts.
From Verif Require Import Views ViewsSpec ViewsFacts Storage PathFacts StorageSpec.
From Verif Require Import StorageFacts StorageMore StorageUse Writers WritersSpec HandleFacts EncodeFacts.
Local Open Scope list_scope.
Local Open Scope Z_scope.
Local Arguments firstn : simpl never.
Local Arguments skipn : simpl never.

(** * Steps of others *)
Lemma intact_bytes st n w w' : intact st n w w' -> bytes_at (cell_at st n) w' = bytes_at (cell_at st n) w.
Proof. destruct st; intros (A & B); cbn [cell_at bytes_at]; rewrite A; auto. Qed.

Lemma intact_uncached st n w w' : intact st n w w' -> uncached st n w -> uncached st n w'.
Proof. destruct st; intros (A & B); simpl; rewrite B; auto. Qed.

Lemma intact_at_pos st n s w w' c p : cell_of s = cell_at st n -> intact st n w w' -> at_pos s w c p -> at_pos s w' c p.
Proof.
  destruct st, s; cbn [cell_of cell_at intact]; try discriminate.
  - intros E (A & B). injection E as -> ->. unfold at_pos. rewrite A. auto.
  - intros E (A & B). injection E as ->. unfold at_pos. rewrite A. auto.
Qed.

Lemma writing_intact st name schema h w w' W c : intact st name w w' -> intact st (schema_name name) w w' ->
  writing st name schema h w W c -> writing st name schema h w' W c.
Proof.
  intros I1 I2 (s & E & H1 & H2 & H3 & H4 & C & A & L & B & U1 & U2). exists s.
  refine (conj E (conj H1 (conj H2 (conj H3 (conj H4 (conj C (conj _ (conj L (conj _ (conj _ _)))))))))).
  - eapply intact_at_pos; eauto.
  - rewrite (intact_bytes _ _ _ _ I2). auto.
  - eapply intact_uncached; eauto.
  - eapply intact_uncached; eauto.
Qed.

(** * Invariant *)
(** [l] are the elements, [W] the bytes flushed, [rest] those not yet flushed,
    [c] what the stream holds. *)
Definition ev_inv (st : storage) (name : string) (schema : list Z) (s : sdesc) (v : ext_vec) (w : world)
    (l : list (list Z)) (W rest c : list Z) : Prop :=
  ev_data v = rest ++ zeros 8 /\ ev_len v = Z.of_nat (length l) /\ bytes_ok c /\
  (exists ms, W ++ rest = concat ms /\ goods s ms l) /\
  writing st name schema (ev_handle v) w W c.

Lemma ev_inv_bytes st name schema s v w l W rest c : ev_inv st name schema s v w l W rest c ->
  bytes_ok W /\ bytes_ok rest /\ len W + len rest = Z.of_nat (length l) * s_size s.
Proof.
  intros (_ & _ & _ & (ms & E & G) & _). assert (B := goods_bytes _ _ _ G). assert (L := goods_len _ _ _ G).
  rewrite <- E in B, L. apply bytes_ok_app in B. rewrite len_app in L. intuition.
Qed.

Lemma ev_inv_intact st name schema s v w w' l W rest c : intact st name w w' -> intact st (schema_name name) w w' ->
  ev_inv st name schema s v w l W rest c -> ev_inv st name schema s v w' l W rest c.
Proof.
  intros I1 I2 (A & B & C & D & E). split; auto. split; auto. split; auto. split; auto. eapply writing_intact; eauto.
Qed.

Lemma ev_inv_touches P st name schema s v w w' l W rest c : touches P w w' ->
  ~ P (cell_at st name) -> ~ P (cell_at st (schema_name name)) ->
  ev_inv st name schema s v w l W rest c -> ev_inv st name schema s v w' l W rest c.
Proof.
  intros T N1 N2 (A & B & C & D & E). split; auto. split; auto. split; auto. split; auto. eapply writing_touches; eauto.
Qed.

Lemma ev_inv_new st name schema s h w : writing st name schema h w [] (zeros 8) ->
  ev_inv st name schema s (ev_new h) w [] [] [] (zeros 8).
Proof.
  intros H. split; [reflexivity|]. split; [reflexivity|]. split; [apply bytes_ok_zeros|]. split; [|exact H].
  exists []. split; auto. constructor.
Qed.

(** The disk state when the process dies: the size in the header is still 0. *)
Definition unsealed (st : storage) (name : string) (schema : list Z) (w : world) : Prop :=
  exists c, bytes_at (cell_at st name) w = Some c /\ firstn 8 c = zeros 8 /\ bytes_ok c /\
    bytes_at (cell_at st (schema_name name)) w = Some schema.

Lemma writing_unsealed st name schema h w W c : writing st name schema h w W c -> bytes_ok c -> unsealed st name schema w.
Proof.
  intros Hw Bc. exists c. split; [eapply writing_bytes; eauto|].
  destruct Hw as (s & _ & _ & _ & _ & _ & _ & _ & (Z0 & _) & B & _). auto.
Qed.

Lemma step_schema st name w w' : step (eq (cell_at st name)) w w' ->
  bytes_at (cell_at st (schema_name name)) w' = bytes_at (cell_at st (schema_name name)) w.
Proof. intros S. eapply bytes_at_touches; [apply S|]. intros H. apply (cell_schema st name). auto. Qed.

Lemma writing_schema st name schema h w W c : writing st name schema h w W c ->
  bytes_at (cell_at st (schema_name name)) w = Some schema.
Proof. intros (s & _ & _ & _ & _ & _ & _ & _ & _ & B & _). auto. Qed.

Lemma writing_loose st name schema h w W c : writing st name schema h w W c -> loose W c.
Proof. intros (s & _ & _ & _ & _ & _ & _ & _ & L & _). auto. Qed.

(** * flush *)
Lemma flush_slice b rest : len rest + 8 <= isize_max ->
  usub b (len (rest ++ zeros 8)) PADDING_SIZE = Ret (len rest) /\
  exists d, slice_range (whole (rest ++ zeros 8)) 0 (len rest) = Ret d /\ sl_bytes d = rest.
Proof.
  intros H. pose proof (len_nonneg rest). rewrite len_app, len_zeros by lia. unfold usub, PADDING_SIZE, isize_max in *.
  rewrite wrap_ok by (unfold usize_limit; lia). split; [f_equal; lia|].
  rewrite slice_range_ok by (simpl; rewrite ?len_app, ?len_zeros; lia). eexists. split; [reflexivity|].
  unfold sl_bytes. simpl sl_mem. simpl sl_len. change (Z.to_nat 0) with 0%nat. rewrite skipn_O.
  apply firstn_app_exact. unfold len. lia.
Qed.

Lemma ev_flush_cases b st name schema s v w l W rest c o w' :
  ev_inv st name schema s v w l W rest c -> len W + len rest + 8 <= isize_max ->
  ev_flush b v w = (o, w') ->
  step (eq (cell_at st name)) w w' /\
  ((exists v', o = Ret (Ok tt, v') /\ ev_inv st name schema s v' w' l (W ++ rest) [] (c ++ rest)) \/
   (is_file st = true /\ w_faults w <> [] /\
     ((exists k v' d, o = Ret (Er k, v') /\ ev_inv st name schema s v' w' l W rest (c ++ d)) \/
      (o = Crash /\ unsealed st name schema w')))).
Proof.
  intros Hi HL R. assert (Bs := ev_inv_bytes _ _ _ _ _ _ _ _ _ _ Hi). destruct Bs as (BW & Br & Lr).
  destruct Hi as (E1 & E2 & Bc & (ms & Em & G) & Hw). pose proof (len_nonneg W). pose proof (len_nonneg rest).
  unfold ev_flush, mbind, lift in R. rewrite E1 in R.
  destruct (flush_slice b rest) as (Eu & d & Ed & Bd); [lia|]. rewrite Eu, Ed, Bd in R.
  destruct (handle_write b (ev_handle v) rest w) as [o1 w1] eqn:Eh.
  assert (H64 : len W + len rest < 2 ^ 64) by (unfold isize_max in HL; lia).
  destruct (handle_write_cases _ _ _ _ _ _ _ _ _ _ _ Hw H64 Eh) as (S1 & X).
  destruct X as [(h' & -> & Hw')|(Hfile & Hf & d1 & d2 & Er & X)].
  - injection R as <- <-. split; auto. left. eexists. split; [reflexivity|].
    split; [reflexivity|]. split; [exact E2|]. split; [apply bytes_ok_app; auto|]. split; [|exact Hw'].
    exists ms. rewrite app_nil_r. auto.
  - rewrite Er in Br. apply bytes_ok_app in Br. destruct Br as (Br1 & _).
    destruct X as [(k & h' & -> & Hw')|(-> & Bp)]; injection R as <- <-.
    + split; auto. right. split; auto. split; auto. left. exists k. eexists. exists d1. split; [reflexivity|].
      split; [reflexivity|]. split; [exact E2|]. split; [apply bytes_ok_app; auto|]. split; [eauto|exact Hw'].
    + split; auto. right. split; auto. split; auto. right. split; auto. exists (c ++ d1). split; auto.
      split; [|split; [apply bytes_ok_app; auto|]].
      * destruct (writing_loose _ _ _ _ _ _ _ Hw) as (Z0 & Lc & _). rewrite firstn8_app; auto. lia.
      * rewrite (step_schema _ _ _ _ S1). eapply writing_schema; eauto.
Qed.

(** * grow, and the setters on the new element *)
Lemma ev_step_cases b e lim s sets st name schema v w l W rest c o w' : wf_struct s -> sets_ok s sets ->
  ev_inv st name schema s v w l W rest c ->
  (Z.of_nat (length l) + 1) * s_size s + 8 <= isize_max ->
  ev_step b e lim s (EGrow sets) v w = (o, w') ->
  step (eq (cell_at st name)) w w' /\
  ((exists v' W' rest' c', o = Ret (true, v') /\
      ev_inv st name schema s v' w' (l ++ [apply_sets sets (zero_record s)]) W' rest' c' /\
      (c = zeros 8 ++ W -> c' = zeros 8 ++ W')) \/
   (is_file st = true /\ w_faults w <> [] /\
     ((exists v' c', o = Ret (false, v') /\ ev_inv st name schema s v' w' l W rest c') \/
      (o = Crash /\ unsealed st name schema w')))).
Proof.
  intros Hwf Hs Hi HL R. pose proof Hwf as (Hpos & _).
  assert (Lr := ev_inv_bytes _ _ _ _ _ _ _ _ _ _ Hi). destruct Lr as (_ & _ & Lr).
  (* the part after the flush *)
  assert (Rest : forall v1 w1 W1 rest1 c1 o1 w2, ev_inv st name schema s v1 w1 l W1 rest1 c1 ->
    mbind (let old_size := len (ev_data v1) in
      let! n := lift (uadd b old_size (s_size s)) in
      let! data := lift (vec_resize (ev_data v1) n) in
      let! l := lift (uadd b (ev_len v1) 1) in
      let! p := lift (usub b old_size PADDING_SIZE) in
      let! _ := lift (slice_from (whole data) p) in
      mret (Ok p, mkEV data l (ev_handle v1)))
      (fun r : result Z io_kind * ext_vec => match r with
       | (Ok p, v) => let! v := ev_set b e s sets p v in mret (true, v)
       | (Er _, v) => mret (false, v) end) w1 = (o1, w2) ->
    w2 = w1 /\ exists v2 rest2, o1 = Ret (true, v2) /\
      ev_inv st name schema s v2 w1 (l ++ [apply_sets sets (zero_record s)]) W1 rest2 c1).
  { intros v1 w1 W1 rest1 c1 o1 w2 I1 R1. assert (B1 := ev_inv_bytes _ _ _ _ _ _ _ _ _ _ I1).
    destruct B1 as (BW & Br & Lr1). destruct I1 as (E1 & E2 & Bc & (ms & Em & G) & Hw).
    pose proof (len_nonneg W1). pose proof (len_nonneg rest1). rewrite E1, E2 in R1.
    assert (Hnn : len (rest1 ++ zeros 8) = len rest1 + 8) by (rewrite len_app; reflexivity).
    assert (Hsz : len rest1 + 8 + s_size s <= isize_max) by nia.
    unfold mbind at 1 in R1. unfold mbind, lift in R1. rewrite Hnn in R1.
    unfold uadd in R1. rewrite wrap_ok in R1 by (unfold usize_limit, isize_max in *; lia).
    rewrite resize_grow in R1 by lia.
    rewrite wrap_ok in R1 by (unfold usize_limit, isize_max in *; nia).
    unfold usub, PADDING_SIZE in R1. rewrite wrap_ok in R1 by (unfold usize_limit, isize_max in *; lia).
    replace (len rest1 + 8 - 8) with (len rest1) in R1 by lia.
    unfold slice_from in R1. rewrite slice_range_ok in R1 by (simpl; rewrite ?len_app, ?len_zeros; lia).
    cbn [mret] in R1. unfold mret, ev_set, mbind, lift in R1. cbn [ev_data] in R1.
    destruct (handle_good b e s sets rest1 (zeros (s_size s)) (zeros 8) (zero_record s)) as (m' & E' & G');
      auto using bytes_ok_zeros, good_zero.
    rewrite E' in R1. cbn in R1. injection R1 as <- <-. split; auto. eexists. exists (rest1 ++ m'). split; [reflexivity|].
    split; [cbn; rewrite <- app_assoc; auto|]. split; [cbn; rewrite app_length; simpl length; lia|]. split; [auto|].
    split; [|exact Hw]. exists (ms ++ [m']). rewrite app_assoc, Em, concat_snoc. split; auto. apply goods_snoc; auto. }
  unfold ev_step, ev_grow in R. unfold mbind at 1 in R. unfold mbind at 1 in R.
  destruct (lim <? len (ev_data v)).
  - destruct (ev_flush b v w) as [o1 w1] eqn:Ef.
    destruct (ev_flush_cases _ _ _ _ _ _ _ _ _ _ _ _ _ Hi ltac:(nia) Ef) as (S1 & X).
    destruct X as [(v1 & -> & I1)|(Hfile & Hf & X)].
    + destruct (Rest v1 w1 _ _ _ o w' I1 R) as (-> & v2 & rest2 & -> & I2).
      split; auto. left. exists v2, (W ++ rest), rest2, (c ++ rest). split; auto. split; auto.
      intros ->. rewrite <- app_assoc. auto.
    + destruct X as [(k & v1 & d & -> & I1)|(-> & U)].
      * cbn in R. injection R as <- <-. split; auto. right. split; auto. split; auto. left. eauto.
      * injection R as <- <-. split; auto. right. split; auto.
  - cbn [mret] in R. unfold mret in R at 1.
    destruct (Rest v w _ _ _ o w' Hi R) as (-> & v2 & rest2 & -> & I2).
    split; [apply step_refl|]. left. exists v2, W, rest2, c. auto.
Qed.

(** * A history *)
Lemma ev_run_cases b e lim s st name schema ops : wf_struct s -> Forall (ev_op_ok st name s) ops ->
  forall v w l W rest c o w', ev_inv st name schema s v w l W rest c -> maps_ok w ->
  (Z.of_nat (length l) + grows ops) * s_size s + 8 <= isize_max ->
  ev_run b e lim s ops v w = (o, w') ->
  maps_ok w' /\
  ((exists flags v' W' rest' c', o = Ret (flags, v') /\ length flags = length ops /\
      ev_inv st name schema s v' w' (l ++ elements s (kept ops flags)) W' rest' c' /\
      (c = zeros 8 ++ W -> Forall (eq true) flags -> c' = zeros 8 ++ W') /\
      (quiet st (others ops) w -> Forall (eq true) flags /\ (is_file st = true -> w_faults w' = []))) \/
   (o = Crash /\ is_file st = true /\ ~ quiet st (others ops) w /\ unsealed st name schema w')).
Proof.
  intros Hwf Hok. pose proof Hwf as (Hpos & _).
  assert (Gnn : forall ops, 0 <= grows ops) by (intros ops0; induction ops0 as [|[|] ? ?]; cbn [grows]; lia).
  induction Hok as [|op ops Ho Hok IH]; intros v w l W rest c o w' Hi MO HL R.
  - cbn in R. injection R as <- <-. split; auto. left. exists [], v, W, rest, c. split; auto. split; auto.
    simpl. rewrite app_nil_r. split; auto. split; auto. intros [Q|(Q & _)]; split; auto. congruence.
  - specialize (Gnn ops). cbn [ev_run] in R. unfold mbind at 1 in R.
    destruct op as [sets|f].
    + cbn [ev_op_ok] in Ho. cbn [grows] in HL.
      destruct (ev_step b e lim s (EGrow sets) v w) as [o1 w1] eqn:E1.
      destruct (ev_step_cases b e lim s sets st name schema v w l W rest c o1 w1 Hwf Ho Hi ltac:(nia) E1) as (S1 & X).
      assert (MO1 : maps_ok w1) by (eapply maps_ok_caches; [apply S1|auto]).
      assert (Next : forall r v1 l1 W1 rest1 c1, o1 = Ret (r, v1) -> ev_inv st name schema s v1 w1 l1 W1 rest1 c1 ->
        (Z.of_nat (length l1) + grows ops) * s_size s + 8 <= isize_max ->
        (l1 ++ elements s (kept ops [])) = l1 ->
        maps_ok w' /\
        ((exists flags v' W' rest' c', o = Ret (r :: flags, v') /\ length flags = length ops /\
            ev_inv st name schema s v' w' (l1 ++ elements s (kept ops flags)) W' rest' c' /\
            (c1 = zeros 8 ++ W1 -> Forall (eq true) flags -> c' = zeros 8 ++ W') /\
            (quiet st (others ops) w1 -> Forall (eq true) flags /\ (is_file st = true -> w_faults w' = []))) \/
         (o = Crash /\ is_file st = true /\ ~ quiet st (others ops) w1 /\ unsealed st name schema w'))).
      { intros r v1 l1 W1 rest1 c1 -> I1 L1 _. unfold mbind in R. cbn [snd fst] in R.
        destruct (ev_run b e lim s ops v1 w1) as [o2 w2] eqn:E2.
        destruct (IH v1 w1 l1 W1 rest1 c1 o2 w2 I1 MO1 L1 E2) as (MO2 & Y).
        destruct Y as [(flags & v' & W' & rest' & c' & -> & Lf & I2 & C2 & Q2)|(-> & Hfile & Q & U)].
        - cbn in R. injection R as <- <-. split; auto. left. exists flags, v', W', rest', c'. auto.
        - injection R as <- <-. split; auto. }
      assert (Q1 : quiet st (others ops) w -> quiet st (others ops) w1).
      { intros [Q|(Q & Q')]; [left; auto|right]. split; auto. apply S1; auto. }
      assert (Kn : forall l1, l1 ++ elements s (kept ops []) = l1).
      { intros l1. destruct ops as [|[|] ?]; apply app_nil_r. }
      destruct X as [(v1 & W1 & rest1 & c1 & -> & I1 & C1)|(Hfile & Hf & X)].
      * destruct (Next true v1 _ W1 rest1 c1 eq_refl I1) as (MO2 & Y).
        { rewrite app_length. simpl length. nia. } { apply Kn. }
        split; auto.
        destruct Y as [(flags & v' & W' & rest' & c' & -> & Lf & I2 & C2 & Q2)|(-> & Hfile & Q & U)].
        -- left. exists (true :: flags), v', W', rest', c'. split; auto. split; [simpl; lia|].
           split; [cbn [kept elements map]; rewrite <- app_assoc in I2; exact I2|]. split.
           ++ intros Hc Hfl. inversion Hfl; subst. apply C2; auto.
           ++ intros Q. cbn [others] in Q. destruct (Q2 (Q1 Q)) as (A1 & A2). split; auto.
        -- right. split; [auto|]. split; [auto|]. split; [intros Q0; apply Q, Q1; exact Q0|auto].
      * assert (NQ : ~ quiet st (others ops) w).
        { intros [Q|(Q & _)]; [congruence|auto]. }
        destruct X as [(v1 & c1 & -> & I1)|(-> & U)].
        -- destruct (Next false v1 _ W rest c1 eq_refl I1) as (MO2 & Y). { nia. } { apply Kn. }
           split; auto.
           destruct Y as [(flags & v' & W' & rest' & c' & -> & Lf & I2 & C2 & Q2)|(-> & _ & Q & U)].
           ++ left. exists (false :: flags), v', W', rest', c'. split; auto. split; [simpl; lia|].
              split; [exact I2|]. split; [intros _ Hfl; inversion Hfl; discriminate|]. intros Q. exfalso. apply NQ. exact Q.
           ++ right. split; auto.
        -- injection R as <- <-. split; auto.
    + cbn [ev_op_ok] in Ho. cbn [grows] in HL. destruct (Ho w MO) as (I & M).
      cbn [ev_step] in R. cbn beta iota in R.
      assert (I1 : ev_inv st name schema s v (f w) l W rest c).
      { eapply ev_inv_intact; eauto; apply I; simpl; auto. }
      unfold mbind in R. cbn [snd fst] in R.
      destruct (ev_run b e lim s ops v (f w)) as [o2 w2] eqn:E2.
      destruct (IH v (f w) l W rest c o2 w2 I1 M HL E2) as (MO2 & Y).
      assert (Q1 : quiet st (others (EOther f :: ops)) w -> quiet st (others ops) (f w)).
      { cbn [others]. intros [Q|(Q & Q')]; [left; auto|right]. split; [apply Q'; simpl; auto|].
        intros g Hg. apply Q'. simpl. auto. }
      destruct Y as [(flags & v' & W' & rest' & c' & -> & Lf & I2 & C2 & Q2)|(-> & Hfile & Q & U)].
      * cbn in R. injection R as <- <-. split; auto. left. exists (true :: flags), v', W', rest', c'.
        split; auto. split; [simpl; lia|]. split; [exact I2|]. split.
        -- intros Hc Hfl. inversion Hfl; subst. auto.
        -- intros Q. destruct (Q2 (Q1 Q)) as (A1 & A2). split; auto.
      * injection R as <- <-. split; auto. right. split; [auto|]. split; [auto|]. split; [intros Q0; apply Q, Q1; exact Q0|auto].
Qed.

(** * close *)
(** The disk state when the process dies before close has returned. *)
Definition unfinished (st : storage) (name : string) (schema D : list Z) (w : world) : Prop :=
  bytes_at (cell_at st (schema_name name)) w = Some schema /\
  exists c, bytes_at (cell_at st name) w = Some c /\ bytes_ok c /\
    (firstn 8 c = zeros 8 \/
     exists c2 p q, loose D c2 /\ le_bytes 8 (len D) = p ++ q /\ c = p ++ skipn (length p) (c2 ++ zeros 8)).

Lemma unsealed_unfinished st name schema D w : unsealed st name schema w -> unfinished st name schema D w.
Proof. intros (c & B & Z0 & Bc & S). split; auto. exists c. auto. Qed.

Lemma sealed_partial W c : loose W c -> sealed W c = le_bytes 8 (len W) ++ skipn (length (le_bytes 8 (len W))) (c ++ zeros 8).
Proof.
  intros (_ & L & _). pose proof (len_nonneg W). unfold sealed. f_equal. rewrite le_bytes_length, skipn_app. f_equal.
  unfold len in L. replace (8 - length c)%nat with 0%nat by lia. auto.
Qed.

Lemma closing_unfinished W c c1 : loose W c -> bytes_ok c -> closing_content W c c1 ->
  bytes_ok c1 /\ (firstn 8 c1 = zeros 8 \/
    exists c2 p q, loose W c2 /\ le_bytes 8 (len W) = p ++ q /\ c1 = p ++ skipn (length p) (c2 ++ zeros 8)).
Proof.
  intros L Bc [(p & q & E & ->)|(p & q & E & ->)].
  - split.
    + apply bytes_ok_app. split; auto. assert (B := bytes_ok_zeros 8). rewrite E in B. apply bytes_ok_app in B. intuition.
    + left. destruct L as (Z0 & L & _). pose proof (len_nonneg W). rewrite firstn8_app; auto. lia.
  - split.
    + apply bytes_ok_app. split.
      * assert (B : bytes_ok (le_bytes 8 (len W))) by apply le_bytes_ok. rewrite E in B. apply bytes_ok_app in B. intuition.
      * apply bytes_ok_skipn. apply bytes_ok_app. split; auto using bytes_ok_zeros.
    + right. exists c, p, q. auto.
Qed.

(** What [ev_close] returns and leaves behind; [D] are all element bytes and
    [c] is the content of the stream after the flush. *)
Definition ev_closed (st : storage) (name : string) (schema D c : list Z) (w w' : world)
    (o : outcome (result view rs_error)) : Prop :=
  (is_file st = true /\ w_faults w <> [] /\
    (o = Panic \/ o = Crash) /\ unfinished st name schema D w') \/
  (bytes_at (cell_at st name) w' = Some (sealed D c) /\
   bytes_at (cell_at st (schema_name name)) w' = Some schema /\
   finds st w' name (Some (sealed D c)) /\ finds st w' (schema_name name) (Some schema) /\
   ((exists r, o = Ret r /\
       (forall sl, r = Ok sl -> len c + 8 <= isize_max ->
          sl_bytes sl = D /\ sealed D c = resource_bytes D /\ slice_ok sl /\ len (sl_mem sl) = sl_len sl + 8) /\
       (is_file st = false \/ w_faults w = [] -> c = zeros 8 ++ D -> exists sl, r = Ok sl)) \/
    isize_max < len c + 8)).

Lemma ev_close_cases b e st name schema s v w l W rest c o w' :
  ev_inv st name schema s v w l W rest c -> maps_ok w -> schema_ok st schema ->
  len W + len rest + 16 <= isize_max ->
  ev_close b e v w = (o, w') ->
  touches (cells_of st name) w w' /\ calm w w' /\ maps_ok w' /\
  ev_closed st name schema (W ++ rest) (c ++ rest) w w' o.
Proof.
  intros Hi MO Sok HL R. assert (Bs := ev_inv_bytes _ _ _ _ _ _ _ _ _ _ Hi). destruct Bs as (BW & Br & Lr).
  unfold ev_close in R. unfold mbind at 1 in R.
  destruct (ev_flush b v w) as [o1 w1] eqn:E1.
  destruct (ev_flush_cases _ _ _ _ _ _ _ _ _ _ _ _ _ Hi ltac:(lia) E1) as (S1 & X).
  assert (T1 : touches (cells_of st name) w w1).
  { eapply touches_mono; [|apply S1]. intros k <-. left. auto. }
  assert (MO1 : maps_ok w1) by (eapply maps_ok_caches; [apply S1|auto]).
  destruct X as [(v1 & -> & I1)|(Hfile & Hf & X)].
  2:{ destruct X as [(k & v1 & d & -> & I1)|(-> & U)].
      - assert (Op : is_open (ev_handle v1) = true) by (destruct I1 as (_ & _ & _ & _ & Hw); eapply writing_open; eauto).
        unfold handle_drop, mbind in R. rewrite Op in R. cbn in R. injection R as <- <-.
        split; auto. split; [apply S1|]. split; auto. left. split; auto. split; auto. split; auto.
        apply unsealed_unfinished. destruct I1 as (_ & _ & B1 & _ & Hw). eapply writing_unsealed; eauto.
      - injection R as <- <-. split; auto. split; [apply S1|]. split; auto. left. split; auto. split; auto. split; auto.
        apply unsealed_unfinished. auto. }
  unfold mbind at 1 in R. destruct (handle_close b e (ev_handle v1) w1) as [o2 w2] eqn:E2.
  destruct I1 as (D1 & D2 & Bc & _ & Hw).
  assert (Dok : data_ok (W ++ rest)) by (split; [apply bytes_ok_app; auto|rewrite len_app; lia]).
  assert (Lo := writing_loose _ _ _ _ _ _ _ Hw).
  destruct (handle_close_cases _ _ _ _ _ _ _ _ _ _ _ Hw MO1 Sok Dok Bc E2) as (T2 & Cm & MO2 & Y).
  assert (T : touches (cells_of st name) w w2) by (eapply touches_trans; eauto).
  assert (Cm2 : calm w w2) by (intros Hq; apply Cm, S1; auto).
  assert (Hff : w_faults w1 <> [] -> w_faults w <> []) by (intros H1 H2; apply H1, S1; auto).
  destruct Y as [(Hfile & Hf & Y & (c1 & Bp & Cc) & Bsc)|(Bd & Bsc & Fd1 & Fd2 & Y)].
  - assert (Un : unfinished st name schema (W ++ rest) w2).
    { split; auto. exists c1. split; auto. apply closing_unfinished with (c := c ++ rest); auto. }
    destruct Y as [(k & h' & -> & Op)| ->].
    + unfold handle_drop, mbind in R. cbn in R. rewrite Op in R. cbn in R. injection R as <- <-.
      split; auto. split; auto. split; auto. left. auto.
    + injection R as <- <-. split; auto. split; auto. split; auto. left. auto.
  - destruct Y as [(-> & Hfile & Hf)|[(r & h' & -> & Op & Rok & Rq)|Hbig]].
    + injection R as <- <-. split; auto. split; auto. split; auto. left. split; auto. split; auto. split; auto.
      split; auto. exists (sealed (W ++ rest) (c ++ rest)). split; auto. split; [apply bytes_ok_sealed; auto|].
      right. exists (c ++ rest), (le_bytes 8 (len (W ++ rest))), []. rewrite app_nil_r. split; auto. split; auto.
      apply sealed_partial; auto.
    + unfold handle_drop, mbind in R. cbn in R. rewrite Op in R. cbn in R. injection R as <- <-.
      split; auto. split; auto. split; auto. right. split; auto. split; auto. split; auto. split; auto. left. exists r. split; auto. split; auto.
      intros [Hq|Hq]; apply Rq; [left; auto|right; apply S1; auto].
    + assert (w' = w2).
      { destruct o2 as [[r h']| | |]; try (injection R as <- <-; auto; fail).
        unfold handle_drop, mbind in R. cbn in R. destruct (is_open h'); cbn in R; injection R as <- <-; auto. }
      subst w2. split; auto. split; auto. split; auto. right. split; auto.
Qed.
