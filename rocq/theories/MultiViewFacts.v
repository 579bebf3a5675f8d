(** Facts about multi array views. *)
From Verif Require Import Base BaseFacts Codec CodecSpec CodecFacts Structs StructsSpec StructsFacts.
From Verif Require Import Views ViewsSpec ViewsFacts Storage PathFacts StorageSpec Writers WritersSpec EncodeFacts.
From Verif Require Import MultiViews MultiSpec.
Local Open Scope list_scope.
Local Open Scope Z_scope.

(** * Records and their bytes *)
Lemma encodes_decode s m r : wf_struct s -> encodes s m r -> record_ok s r -> decode s m = r.
Proof.
  intros Hwf (B & L & Lr & F & _) Hok.
  apply (nth_ext _ _ 0 0); [unfold decode; rewrite map_length; auto|].
  intros j Hj. unfold decode in Hj. rewrite map_length in Hj.
  unfold decode. set (g := fun f => field_value (f_prim f) m (f_off f) (f_bits f)).
  rewrite (nth_indep _ 0 (g default_field)) by (rewrite map_length; auto). rewrite map_nth.
  change (nth j (s_fields s) default_field) with (field_nth s j).
  destruct (wf_nth s j Hwf Hj) as (Ho & Hb & Hin & Hlay & Hs). unfold g.
  apply field_value_bits; auto.
  unfold field_nth. clear F Ho Hb Hin Hlay Hs Lr. unfold record_ok in Hok. revert j Hj.
  induction Hok as [|f v fs r H Hok IH]; intros j Hj; [simpl in Hj; lia|].
  destruct j; simpl; auto. apply IH. simpl in Hj. lia.
Qed.

Lemma record_ok_zero s : wf_struct s -> record_ok s (zero_record s).
Proof.
  intros (_ & Hf & _). unfold record_ok, zero_record. induction Hf as [|f fs H Hf IH]; simpl; constructor; auto.
  destruct H as (_ & Hb & _). assert (0 < 2 ^ f_bits f) by (apply Z.pow_pos_nonneg; lia).
  assert (0 < 2 ^ (f_bits f - 1)) by (apply Z.pow_pos_nonneg; lia).
  unfold in_range. destruct (f_prim f); simpl; auto; lia.
Qed.

Lemma record_ok_sets s sets : sets_ok s sets -> forall r, record_ok s r -> record_ok s (apply_sets sets r).
Proof.
  induction 1 as [|[i v] sets [Hi Hv] _ IH]; intros r Hr; auto. apply IH. clear IH. unfold record_ok, field_nth in *. simpl in *.
  revert i Hi Hv. induction Hr as [|f x fs r H Hr IH]; intros i Hi Hv; [simpl in Hi; lia|].
  destruct i; simpl; constructor; auto. apply IH; auto. simpl in Hi. lia.
Qed.

Lemma good_ok s m r : wf_struct s -> encodes s m r -> record_ok s r -> good s m r.
Proof. intros. split; auto. apply encodes_decode; auto. Qed.

(** * Alternatives *)
Lemma wf_vdesc_nth ts t : wf_vdesc ts -> (t < length ts)%nat -> is_byte (v_tag ts t) /\ wf_struct (v_struct ts t).
Proof. intros (F & _) Ht. unfold v_tag, v_struct. apply (proj1 (Forall_nth _ ts) F t (0, mkStruct 0 []) Ht). Qed.

Lemma find_tag_some ts tag t : find_tag ts tag = Some t -> (t < length ts)%nat /\ v_tag ts t = tag.
Proof.
  revert t. induction ts as [|[g s] ts IH]; intros t H; simpl in H; [discriminate|].
  destruct (Z.eqb_spec tag g) as [->|Hne].
  - injection H as <-. split; [simpl; lia|reflexivity].
  - destruct (find_tag ts tag) as [k|]; [|discriminate]. injection H as <-.
    destruct (IH k eq_refl) as (H1 & H2). split; [simpl; lia|auto].
Qed.

Lemma find_tag_none ts tag : find_tag ts tag = None <-> ~ In tag (map fst ts).
Proof.
  induction ts as [|[g s] ts IH]; simpl; [tauto|].
  destruct (Z.eqb_spec tag g) as [->|Hne].
  - split; [discriminate|]. intros H. exfalso. auto.
  - destruct (find_tag ts tag); simpl; split; intros H; try discriminate; auto.
    + exfalso. destruct IH as (_ & IH). assert (X : Some n = None) by (apply IH; tauto). discriminate.
    + destruct IH as (IH & _). specialize (IH eq_refl). intros [->|X]; auto.
Qed.

Lemma find_tag_ok ts t : wf_vdesc ts -> (t < length ts)%nat -> find_tag ts (v_tag ts t) = Some t.
Proof.
  intros (_ & Hnd) Ht. unfold v_tag. revert t Ht. induction ts as [|[g s] ts IH]; intros t Ht; [simpl in Ht; lia|].
  simpl in Hnd. inversion Hnd as [|? ? Hni Hnd']; subst. destruct t as [|t].
  - simpl. rewrite Z.eqb_refl. auto.
  - simpl in Ht. simpl. destruct (Z.eqb_spec (fst (nth t ts (0, mkStruct 0 []))) g) as [E|E].
    + exfalso. apply Hni. rewrite <- E. apply in_map, nth_In. lia.
    + rewrite IH by (auto; lia). reflexivity.
Qed.

(** * Slices *)
Lemma slice_range_cases d a z : slice_ok d ->
  slice_range d a z = Panic \/
  exists w, slice_range d a z = Ret w /\ slice_ok w /\ view_inside d w /\ sl_len w = z - a /\
    0 <= a <= z /\ z <= sl_len d /\ sl_mem w = skipn (Z.to_nat a) (sl_mem d).
Proof.
  intros (Hl & Hm & Hb). unfold slice_range.
  destruct ((0 <=? a) && (a <=? z) && (z <=? sl_len d)) eqn:E; [|auto]. right.
  eexists. split; [reflexivity|]. split.
  { split; [|split]; simpl; [rewrite len_skipn by lia; lia|lia|apply bytes_ok_skipn; auto]. }
  split; [exists a; simpl; repeat split; lia|]. simpl. repeat split; lia.
Qed.

Lemma slice_range_bytes d a z w : slice_ok d -> slice_range d a z = Ret w ->
  sl_bytes w = sublist a (z - a) (sl_bytes d).
Proof.
  intros (Hl & _). unfold slice_range. destruct ((0 <=? a) && (a <=? z) && (z <=? sl_len d)) eqn:E; [|discriminate].
  intros H. injection H as <-. unfold sl_bytes, sublist. simpl. rewrite skipn_firstn_comm, firstn_firstn. f_equal. lia.
Qed.

Lemma sl_bytes_split d a c : slice_ok d -> sl_bytes d = a ++ c ->
  exists w, slice_from d (len a) = Ret w /\ slice_ok w /\ sl_bytes w = c /\ sl_mem w = skipn (length a) (sl_mem d) /\
    sl_len w = len c.
Proof.
  intros Hd E. pose proof (len_sl_bytes d Hd) as L. rewrite E, len_app in L.
  pose proof (len_nonneg a). pose proof (len_nonneg c).
  unfold slice_from. destruct (slice_range_cases d (len a) (sl_len d) Hd) as [P|(w & R & Hw & _ & Hlw & _ & _ & Hmw)].
  { rewrite slice_range_ok in P by lia. discriminate. }
  exists w. split; auto. split; auto. split.
  - rewrite (slice_range_bytes _ _ _ _ Hd R), E. unfold sublist.
    replace (Z.to_nat (len a)) with (length a) by (unfold len; lia).
    rewrite skipn_app, skipn_all, Nat.sub_diag. simpl. apply firstn_all2. unfold len in *. lia.
  - split; [rewrite Hmw; f_equal; unfold len; lia|lia].
Qed.

(** * Items of a bucket *)
Lemma item_next_ok b e ts d x ms rest : wf_vdesc ts -> slice_ok d -> item_encodes ts ms x -> sl_bytes d = ms ++ rest ->
  exists i d', item_next ts d = Ret (Some i, d') /\ item_shows b e ts i x /\ slice_ok d' /\ sl_bytes d' = rest.
Proof.
  intros Hts Hd ((Ht & Hr) & m & -> & Enc) Eb. destruct x as [t r]. simpl in *.
  destruct (wf_vdesc_nth ts t Hts Ht) as (Hby & Hwf). pose proof Hwf as (Hs & _).
  pose proof (encodes_decode _ _ _ Hwf Enc Hr) as Dec. destruct Enc as (Bm & Lm & _).
  pose proof (len_sl_bytes d Hd) as L. rewrite Eb in L. simpl in L. rewrite len_cons, len_app in L.
  pose proof (len_nonneg rest). unfold item_next. replace (sl_len d =? 0) with false by lia. simpl negb. cbn iota.
  assert (Hg : slice_get d 0 = Ret (v_tag ts t)).
  { unfold slice_get, mem_get. destruct Hd as (Hl & _). replace ((0 <=? 0) && (0 <? sl_len d)) with true by lia.
    replace ((0 <=? 0) && (0 <? len (sl_mem d))) with true by lia. f_equal.
    unfold sl_bytes in Eb. assert (X : nth 0 (firstn (Z.to_nat (sl_len d)) (sl_mem d)) 0 = v_tag ts t) by (rewrite Eb; auto).
    change (Z.to_nat 0) with 0%nat. destruct (sl_mem d); [rewrite firstn_nil in X; auto|].
    destruct (Z.to_nat (sl_len d)) eqn:En; [lia|]. simpl in X. auto. }
  rewrite Hg. simpl obind.
  destruct (sl_bytes_split d [v_tag ts t] (m ++ rest) Hd Eb) as (d1 & R1 & O1 & B1 & M1 & L1).
  change (len [v_tag ts t]) with 1 in R1. rewrite R1. simpl obind. rewrite find_tag_ok by auto.
  destruct (sl_bytes_split d1 m rest O1 B1) as (d2 & R2 & O2 & B2 & M2 & L2). rewrite Lm in R2. rewrite R2. simpl obind.
  eexists _, d2. split; [reflexivity|]. split; [|auto].
  split; [reflexivity|]. simpl.
  assert (Hpre : firstn (length m) (sl_mem d1) = m).
  { unfold sl_bytes in B1. assert (X : firstn (length m) (firstn (Z.to_nat (sl_len d1)) (sl_mem d1)) = firstn (length m) (m ++ rest)) by (rewrite B1; auto).
    rewrite firstn_firstn in X. rewrite len_app in L1. replace (Nat.min (length m) (Z.to_nat (sl_len d1))) with (length m) in X by (unfold len in *; lia).
    rewrite X, firstn_app, Nat.sub_diag, firstn_all. simpl. apply app_nil_r. }
  rewrite len_app in L1. destruct O1 as (Hl1 & _ & Hb1). split; [lia|].
  rewrite get_all_decode by (auto; lia). f_equal. rewrite <- Dec.
  rewrite <- (decode_firstn (v_struct ts t) (sl_mem d1) (len m)) by (auto; lia).
  f_equal. rewrite <- Hpre at 2. f_equal. unfold len. lia.
Qed.

Lemma item_next_empty ts d : slice_ok d -> sl_bytes d = [] -> item_next ts d = Ret (None, d).
Proof.
  intros Hd E. pose proof (len_sl_bytes d Hd) as L. rewrite E, len_nil in L.
  unfold item_next. replace (sl_len d =? 0) with true by lia. reflexivity.
Qed.

Lemma bucket_yields_ok b e ts d l : wf_vdesc ts -> slice_ok d -> bucket_of ts (sl_bytes d) l ->
  bucket_yields b e ts d l.
Proof.
  intros Hts Hd (ms & E & F) k. revert d Hd ms l E F. induction k as [|k IH]; intros d Hd ms l E F.
  - exists [], d. split; [reflexivity|constructor].
  - destruct F as [|m x ms l Hm F].
    + simpl. rewrite item_next_empty by auto. simpl.
      destruct (IH d Hd [] [] E ltac:(constructor)) as (outs & d' & R & F'). rewrite R. simpl.
      eexists _, d'. split; [reflexivity|]. simpl in F'. constructor; [exact I|]. auto.
    + simpl in E. destruct (item_next_ok b e ts d x m (concat ms) Hts Hd Hm E) as (i & d1 & R1 & S1 & O1 & B1).
      simpl. rewrite R1. simpl. destruct (IH d1 O1 ms l B1 F) as (outs & d' & R & F'). rewrite R. simpl.
      eexists _, d'. split; [reflexivity|]. constructor; [exact S1|].
      replace (firstn k (map Some l ++ None :: repeat None k)) with (firstn k (map Some l ++ repeat None k)); auto.
      change (None :: repeat None k) with (repeat (@None value) (S k)).
      clear. revert l. induction k as [|k IH]; intros l; [reflexivity|].
      destruct l as [|x l].
      * cbn [map app]. specialize (IH []). cbn [map app] in IH.
        change (repeat None (S k)) with (@None value :: repeat None k).
        change (repeat None (S (S k))) with (@None value :: repeat None (S k)).
        cbn [firstn]. f_equal. exact IH.
      * cbn [map app firstn]. f_equal.
        assert (G : forall n, (k <= n)%nat -> firstn k (map Some l ++ repeat None n) = firstn k (map Some l ++ repeat None k)).
        { clear. revert l. induction k as [|k IH]; intros l n Hn; [reflexivity|]. destruct l as [|x l].
          - destruct n; [lia|]. cbn [map app repeat firstn]. f_equal. apply (IH [] n). lia.
          - cbn [map app firstn]. f_equal. rewrite IH by lia. symmetry. apply IH. lia. }
        rewrite (G (S k)), (G (S (S k))) by lia. auto.
Qed.

Lemma item_collect_fuel_ok b e ts : wf_vdesc ts -> forall ms l d fuel, slice_ok d -> sl_bytes d = concat ms ->
  Forall2 (item_encodes ts) ms l -> (length l < fuel)%nat ->
  exists is, item_collect_fuel ts fuel d = Ret is /\ Forall2 (item_shows b e ts) is l.
Proof.
  intros Hts ms l d fuel Hd E F. revert d fuel Hd E. induction F as [|m x ms l Hm F IH]; intros d fuel Hd E Hf.
  - destruct fuel; [simpl in Hf; lia|]. simpl. rewrite item_next_empty by auto. simpl. exists []. auto.
  - destruct fuel; [simpl in Hf; lia|]. simpl in E. simpl.
    destruct (item_next_ok b e ts d x m (concat ms) Hts Hd Hm E) as (i & d1 & R1 & S1 & O1 & B1).
    rewrite R1. simpl. simpl in Hf. destruct (IH d1 fuel O1 B1 ltac:(lia)) as (is & R & S). rewrite R. simpl.
    exists (i :: is). auto.
Qed.

Lemma item_len ts m x : wf_vdesc ts -> item_encodes ts m x -> 1 <= len m.
Proof. intros _ (_ & c & -> & _). rewrite len_cons. pose proof (len_nonneg c). lia. Qed.

Lemma item_collect_ok b e ts d l : wf_vdesc ts -> slice_ok d -> bucket_of ts (sl_bytes d) l ->
  exists is, item_collect ts d = Ret is /\ Forall2 (item_shows b e ts) is l /\
    map_outcome (get_item b e ts) is = Ret l.
Proof.
  intros Hts Hd (ms & E & F).
  assert (Hlen : Z.of_nat (length l) <= sl_len d).
  { rewrite <- (len_sl_bytes d Hd), E. clear E. induction F as [|m x ms l Hm F IH]; [unfold len; simpl; lia|].
    cbn [concat length]. rewrite len_app. pose proof (item_len _ _ _ Hts Hm). lia. }
  destruct (item_collect_fuel_ok b e ts Hts ms l d (S (Z.to_nat (sl_len d))) Hd E F ltac:(lia)) as (is & R & S).
  exists is. split; auto. split; auto. clear - S. induction S as [|i x is l (H1 & H2 & H3) S IH]; [reflexivity|].
  simpl. unfold get_item at 1. rewrite H1, H3. simpl. rewrite IH. simpl. destruct x; reflexivity.
Qed.

(** Arbitrary bytes. *)
Lemma item_next_safe ts d : wf_vdesc ts -> slice_ok d ->
  item_next ts d = Panic \/
  (sl_len d = 0 /\ item_next ts d = Ret (None, d)) \/
  exists t m d', item_next ts d = Ret (Some (t, m), d') /\ (t < length ts)%nat /\
    handle_inside (v_struct ts t) d m /\ view_inside d d' /\ slice_ok d' /\ sl_len d' < sl_len d.
Proof.
  intros Hts Hd. pose proof Hd as (Hl & Hm & Hb). unfold item_next.
  destruct (Z.eqb_spec (sl_len d) 0) as [E|E]; simpl; [right; left; auto|].
  unfold slice_get, mem_get. replace ((0 <=? 0) && (0 <? sl_len d)) with true by lia.
  replace ((0 <=? 0) && (0 <? len (sl_mem d))) with true by lia. simpl obind.
  unfold slice_from. destruct (slice_range_cases d 1 (sl_len d) Hd) as [->|(d1 & R1 & O1 & V1 & L1 & _ & _ & M1)]; [auto|].
  rewrite R1. simpl obind. destruct (find_tag ts _) as [t|] eqn:Ft; [|auto].
  destruct (find_tag_some _ _ _ Ft) as (Ht & _). destruct (wf_vdesc_nth ts t Hts Ht) as (_ & (Hs & _)).
  destruct (slice_range_cases d1 (s_size (v_struct ts t)) (sl_len d1) O1) as [->|(d2 & R2 & O2 & V2 & L2 & B2 & B2' & M2)]; [auto|].
  rewrite R2. simpl obind. right. right. exists t, (sl_mem d1), d2. split; auto. split; auto. split.
  { exists 1. rewrite M1. repeat split; lia. }
  split; [eapply view_inside_trans; eauto|]. split; auto. lia.
Qed.

Definition item_in (ts : vdesc) (d : slice) (i : option item) : Prop :=
  match i with
  | Some (t, m) => (t < length ts)%nat /\ handle_inside (v_struct ts t) d m
  | None => True
  end.

Lemma handle_inside_trans s d d' m : view_inside d d' -> handle_inside s d' m -> handle_inside s d m.
Proof.
  intros (p & Hp & Hpl & Hp0 & Hpm) (q & Hq & Hql & Hqm). exists (p + q). split; [lia|]. split; [lia|].
  rewrite Hqm, Hpm, skipn_skipn'. f_equal. lia.
Qed.

Lemma view_inside_refl d : slice_ok d -> view_inside d d.
Proof. intros (Hl & _). exists 0. simpl. repeat split; lia. Qed.

Lemma item_run_safe ts k d : wf_vdesc ts -> slice_ok d ->
  item_run ts k d = Panic \/
  exists outs d', item_run ts k d = Ret (outs, d') /\ length outs = k /\ Forall (item_in ts d) outs /\ view_inside d d' /\ slice_ok d'.
Proof.
  intros Hts. revert d. induction k as [|k IH]; intros d Hd; simpl.
  - right. exists [], d. auto 10 using view_inside_refl.
  - destruct (item_next_safe ts d Hts Hd) as [->|[(_ & ->)|(t & m & d1 & -> & Ht & Hh & V1 & O1 & _)]]; [auto| |]; simpl.
    + destruct (IH d Hd) as [->|(outs & d' & -> & L & F & V & O)]; [auto|]. right. simpl. exists (None :: outs), d'.
      simpl. split; auto. split; [lia|]. split; [constructor; [exact I|auto]|auto].
    + destruct (IH d1 O1) as [->|(outs & d' & -> & L & F & V & O)]; [auto|]. right. simpl.
      exists (Some (t, m) :: outs), d'. split; auto. split; [simpl; lia|]. split.
      * constructor; [split; auto|]. revert F. apply Forall_impl. intros [[t' m']|]; simpl; auto.
        intros (H1 & H2). split; auto. eapply handle_inside_trans; eauto.
      * split; [eapply view_inside_trans; eauto|auto].
Qed.

Lemma item_collect_safe ts d : wf_vdesc ts -> slice_ok d ->
  item_collect ts d = Panic \/
  exists is, item_collect ts d = Ret is /\ Forall (fun i => item_in ts d (Some i)) is.
Proof.
  intros Hts. unfold item_collect.
  assert (G : forall fuel d, slice_ok d -> (Z.to_nat (sl_len d) < fuel)%nat ->
    item_collect_fuel ts fuel d = Panic \/
    exists is, item_collect_fuel ts fuel d = Ret is /\ Forall (fun i => item_in ts d (Some i)) is).
  { induction fuel as [|fuel IH]; intros d0 Hd Hf; [lia|]. simpl.
    destruct (item_next_safe ts d0 Hts Hd) as [->|[(_ & ->)|(t & m & d1 & -> & Ht & Hh & V1 & O1 & Hlt)]]; [auto| |]; simpl.
    - right. exists []. auto.
    - pose proof O1 as (Hl1 & _). destruct (IH d1 O1 ltac:(lia)) as [->|(is & -> & F)]; [auto|]. right. simpl.
      exists ((t, m) :: is). split; auto. constructor; [split; auto|]. revert F. apply Forall_impl. intros [t' m'] (H1 & H2).
      split; auto. eapply handle_inside_trans; eauto. }
  intros Hd. apply G; auto.
Qed.

Lemma item_unknown_tag ts d tag rest : slice_ok d -> sl_bytes d = tag :: rest -> ~ In tag (map fst ts) ->
  item_next ts d = Panic.
Proof.
  intros Hd E Hn. pose proof (len_sl_bytes d Hd) as L. rewrite E, len_cons in L. pose proof (len_nonneg rest).
  unfold item_next. replace (sl_len d =? 0) with false by lia. simpl negb. cbn iota.
  destruct (sl_bytes_split d [tag] rest Hd E) as (d1 & R1 & _). change (len [tag]) with 1 in R1.
  assert (Hg : slice_get d 0 = Ret tag).
  { unfold slice_get, mem_get. destruct Hd as (Hl & _). replace ((0 <=? 0) && (0 <? sl_len d)) with true by lia.
    replace ((0 <=? 0) && (0 <? len (sl_mem d))) with true by lia. f_equal.
    unfold sl_bytes in E. change (Z.to_nat 0) with 0%nat. destruct (sl_mem d); [rewrite firstn_nil in E; discriminate|].
    destruct (Z.to_nat (sl_len d)) eqn:En; [lia|]. simpl in E. injection E as -> _. auto. }
  rewrite Hg. simpl obind. rewrite R1. simpl obind. apply find_tag_none in Hn. rewrite Hn. auto.
Qed.

Lemma item_truncated ts d t rest : wf_vdesc ts -> slice_ok d -> (t < length ts)%nat -> sl_bytes d = v_tag ts t :: rest ->
  len rest < s_size (v_struct ts t) -> item_next ts d = Panic.
Proof.
  intros Hts Hd Ht E Hlt. destruct (item_next_safe ts d Hts Hd) as [P|[(Z0 & _)|(t' & m & d' & R & Ht' & Hh & _)]]; auto.
  - pose proof (len_sl_bytes d Hd) as L. rewrite E, len_cons in L. pose proof (len_nonneg rest). lia.
  - pose proof (len_sl_bytes d Hd) as L. rewrite E, len_cons in L. pose proof (len_nonneg rest).
    unfold item_next in *. replace (sl_len d =? 0) with false in * by lia. simpl negb in *. cbn iota in *.
    destruct (sl_bytes_split d [v_tag ts t] rest Hd E) as (d1 & R1 & _ & _ & _ & L1). change (len [v_tag ts t]) with 1 in R1.
    destruct (slice_get d 0) as [tag| | |] eqn:Eg; try discriminate. simpl obind in *.
    assert (tag = v_tag ts t) as ->.
    { unfold slice_get, mem_get in Eg. destruct Hd as (Hl & _). replace ((0 <=? 0) && (0 <? sl_len d)) with true in Eg by lia.
      replace ((0 <=? 0) && (0 <? len (sl_mem d))) with true in Eg by lia. injection Eg as <-.
      unfold sl_bytes in E. change (Z.to_nat 0) with 0%nat. destruct (sl_mem d); [rewrite firstn_nil in E; discriminate|].
      destruct (Z.to_nat (sl_len d)) eqn:En; [lia|]. simpl in E. injection E as -> _. auto. }
    rewrite R1 in *. simpl obind in *. rewrite find_tag_ok in * by auto.
    unfold slice_from, slice_range. replace (_ && _ && _) with false by lia. reflexivity.
Qed.
