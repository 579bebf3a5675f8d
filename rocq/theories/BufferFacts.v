(** How much external vectors and multivectors keep in memory. *)
From Verif Require Import Base BaseFacts Codec CodecSpec Structs StructsSpec Views ViewsSpec.
From Verif Require Import Storage PathFacts StorageSpec StorageFacts StorageMore Writers HandleFacts WritersSpec EncodeFacts ElsewhereFacts ExtVecFacts ExtVecUse.
From Verif Require Import MultiViews MultiSpec MultiViewFacts MultiVecFacts MultiVecUse CountFacts BufferSpec.
Local Open Scope string_scope.
Local Open Scope list_scope.
Local Open Scope Z_scope.

(** * The arithmetic *)
Lemma pending_next limit size n : 8 <= limit -> 0 < size -> 0 <= n ->
  pending limit size (n + 1) = if limit <? 8 + pending limit size n * size then 1 else pending limit size n + 1.
Proof.
  intros Hl Hs Hn. unfold pending. set (cap := capacity limit size).
  assert (Hc : 1 <= cap). { unfold cap, capacity. assert (0 <= (limit - 8) / size) by (apply Z.div_pos; lia). lia. }
  assert (Full : forall p, (limit <? 8 + p * size) = (cap <=? p)).
  { intros p. unfold cap, capacity. assert (D := Z.div_mod (limit - 8) size ltac:(lia)).
    assert (M := Z.mod_pos_bound (limit - 8) size Hs). set (q := (limit - 8) / size) in *.
    destruct (Z.leb_spec (q + 1) p); destruct (Z.ltb_spec limit (8 + p * size)); auto; nia. }
  rewrite Full. replace (n + 1 =? 0) with false by lia. replace (n + 1 - 1) with n by lia.
  destruct (Z.eqb_spec n 0) as [->|H].
  - replace (cap <=? 0) with false by lia. rewrite Z.mod_0_l by lia. reflexivity.
  - assert (M := Z.mod_pos_bound (n - 1) cap ltac:(lia)). assert (D := Z.div_mod (n - 1) cap ltac:(lia)).
    set (q := (n - 1) / cap) in *. set (r := (n - 1) mod cap) in *.
    destruct (Z.leb_spec cap (r + 1)).
    + rewrite <- (Z.mod_unique n cap (q + 1) 0); [reflexivity|lia|nia].
    + rewrite <- (Z.mod_unique n cap q (r + 1)); [reflexivity|lia|nia].
Qed.

Lemma pending_bound limit size n : 8 <= limit -> 0 < size -> 0 <= n ->
  0 <= pending limit size n <= n /\ 8 + pending limit size n * size <= limit + size.
Proof.
  intros Hl Hs Hn. unfold pending. destruct (Z.eqb_spec n 0) as [->|H]; [lia|].
  assert (Hc : 1 <= capacity limit size). { unfold capacity. assert (0 <= (limit - 8) / size) by (apply Z.div_pos; lia). lia. }
  assert (M := Z.mod_pos_bound (n - 1) (capacity limit size) ltac:(lia)).
  assert (L := Z.mod_le (n - 1) (capacity limit size) ltac:(lia) ltac:(lia)).
  split; [lia|]. unfold capacity in *. assert (D := Z.div_mod (limit - 8) size ltac:(lia)).
  assert (M2 := Z.mod_pos_bound (limit - 8) size Hs). set (q := (limit - 8) / size) in *.
  assert ((n - 1) mod (q + 1) <= q) by lia. nia.
Qed.

(** * Setters do not change the length *)
Lemma mem_write_len m pos l m' : mem_write m pos l = Ret m' -> len m' = len m.
Proof.
  unfold mem_write. destruct (_ && _) eqn:E; [|discriminate]. intros H. injection H as <-. apply len_splice; lia.
Qed.

Lemma write_bytes_len b e t v d off nb d' : write_bytes b e t v d off nb = Ret d' -> len d' = len d.
Proof.
  unfold write_bytes. destruct (match b with Debug => _ | Release => _ end); [discriminate|].
  destruct (negb _); [discriminate|]. unfold obind. destruct (load_u64 _ _ _ _) as [x| | |]; try discriminate.
  unfold store_u64. destruct (_ <=? 8); [|discriminate].
  all: match goal with |- context [mem_write ?a ?b ?c] => destruct (mem_write a b c) as [y| | |] eqn:E end; try discriminate.
  all: apply mem_write_len in E.
  all: destruct (_ <? nb); [|intros H; injection H as <-; auto].
  all: destruct (negb _); [discriminate|].
  all: destruct (mem_get _ _); try discriminate; intros H; apply mem_write_len in H; congruence.
Qed.

Lemma set_field_len b e s f v m m' : set_field b e s f v m = Ret m' -> len m' = len m.
Proof.
  unfold set_field. destruct (Z.leb_spec (s_size s) (len m)); [|discriminate]. unfold obind.
  destruct (write_bytes _ _ _ _ _ _ _) as [x| | |] eqn:E; try discriminate. intros H0. injection H0 as <-.
  apply write_bytes_len in E. rewrite len_app, E, <- len_app, firstn_skipn. reflexivity.
Qed.

Lemma run_sets_len b e s ops : forall m m', run_sets b e s ops m = Ret m' -> len m' = len m.
Proof.
  induction ops as [|[i v] ops IH]; intros m m'; cbn [run_sets]; [intros H; injection H as <-; auto|].
  unfold obind. destruct (set_field _ _ _ _ _ _) as [x| | |] eqn:E; try discriminate. intros H.
  rewrite (IH _ _ H). eapply set_field_len; eauto.
Qed.

Lemma through_len b e s ops d p d' : through_handle b e s ops d p = Ret d' -> len d' = len d.
Proof.
  unfold through_handle, obind. destruct (run_sets _ _ _ _ _) as [x| | |] eqn:E; try discriminate. intros H. injection H as <-.
  apply run_sets_len in E. rewrite len_app, E, <- len_app, firstn_skipn. reflexivity.
Qed.

Lemma resize_len d n d' : len d <= n -> vec_resize d n = Ret d' -> len d' = n.
Proof.
  intros L. unfold vec_resize. destruct (n <=? isize_max); [|discriminate]. intros H. injection H as <-.
  rewrite len_app, len_zeros by lia. rewrite firstn_all2 by (unfold len in L; lia). lia.
Qed.

(** * External vectors *)
Lemma ev_flush_len b v w r v' w' : ev_flush b v w = (Ret (r, v'), w') ->
  len (ev_data v') = match r with Ok _ => 8 | Er _ => len (ev_data v) end.
Proof.
  unfold ev_flush, mbind, lift. intros R.
  destruct (usub b _ _) as [n| | |]; try discriminate. destruct (slice_range _ _ _) as [d| | |]; try discriminate.
  destruct (handle_write _ _ _ _) as [[[[u|k] h]| | |] w1]; try discriminate; unfold mret in R; injection R as <- <- <-; reflexivity.
Qed.

Lemma ev_grow_len b lim s v w r v' w' : 0 < s_size s -> 8 <= lim -> len (ev_data v) <= lim + s_size s -> lim + 2 * s_size s < usize_limit ->
  ev_grow b lim s v w = (Ret (r, v'), w') ->
  len (ev_data v') = match r with
    | Ok _ => (if lim <? len (ev_data v) then 8 else len (ev_data v)) + s_size s
    | Er _ => len (ev_data v)
    end.
Proof.
  intros Hs Hl Hd Hu R. pose proof (len_nonneg (ev_data v)).
  assert (Rest : forall v1 w1, len (ev_data v1) = (if lim <? len (ev_data v) then 8 else len (ev_data v)) ->
    (let old_size := len (ev_data v1) in
      let! n := lift (uadd b old_size (s_size s)) in
      let! data := lift (vec_resize (ev_data v1) n) in
      let! l := lift (uadd b (ev_len v1) 1) in
      let! p := lift (usub b old_size PADDING_SIZE) in
      let! _ := lift (slice_from (whole data) p) in
      mret (Ok p, mkEV data l (ev_handle v1))) w1 = (Ret (r, v'), w') ->
    len (ev_data v') = match r with
      | Ok _ => (if lim <? len (ev_data v) then 8 else len (ev_data v)) + s_size s
      | Er _ => len (ev_data v)
      end).
  { intros v1 w1 L R1. cbv zeta in R1. unfold mbind, lift in R1. rewrite <- L.
    assert (0 <= len (ev_data v1) <= lim + s_size s) by (destruct (lim <? _); lia).
    unfold uadd in R1 at 1. rewrite wrap_ok in R1 by lia.
    destruct (vec_resize _ _) as [d| | |] eqn:E; try discriminate. apply resize_len in E; [|lia].
    destruct (uadd _ _ _) as [l| | |]; try discriminate. destruct (usub _ _ _) as [p| | |]; try discriminate.
    destruct (slice_from _ _) as [x| | |]; try discriminate. unfold mret in R1. injection R1 as <- <- _. exact E. }
  unfold ev_grow in R. unfold mbind at 1 in R. destruct (lim <? len (ev_data v)) eqn:El.
  - destruct (ev_flush b v w) as [[[[u|k] v1]| | |] w1] eqn:E; try discriminate; assert (L := ev_flush_len _ _ _ _ _ _ E).
    + eapply Rest; eauto.
    + unfold mret in R. injection R as <- <- <-. exact L.
  - unfold mret in R at 1. eapply Rest; eauto.
Qed.

Lemma ev_set_len b e s sets p v w v' w' : ev_set b e s sets p v w = (Ret v', w') -> len (ev_data v') = len (ev_data v).
Proof.
  unfold ev_set, mbind, lift. destruct (through_handle _ _ _ _ _ _) as [d| | |] eqn:E; try discriminate. intros R. unfold mret in R.
  injection R as <- <-. eapply through_len; eauto.
Qed.

Definition holding (lim : Z) (s : sdesc) (n : Z) (v : ext_vec) : Prop := len (ev_data v) = 8 + pending lim (s_size s) n * s_size s.

Lemma ev_run_len b e lim s ops : 0 < s_size s -> 8 <= lim -> lim + 2 * s_size s < usize_limit -> forall n v w flags v' w', 0 <= n ->
  holding lim s n v -> ev_run b e lim s ops v w = (Ret (flags, v'), w') ->
  holding lim s (n + Z.of_nat (List.length (kept ops flags))) v'.
Proof.
  intros Hs Hl Hu. induction ops as [|o ops IH]; intros n v w flags v' w' Hn H R; cbn [ev_run] in R.
  - unfold mret in R. injection R as <- <- <-. simpl. rewrite Z.add_0_r. exact H.
  - unfold mbind at 1 in R. destruct (ev_step b e lim s o v w) as [[[x v1]| | |] w1] eqn:E; try discriminate.
    unfold mbind in R. cbn [fst snd] in R. destruct (ev_run b e lim s ops v1 w1) as [[[y v2]| | |] w2] eqn:E2; try discriminate.
    unfold mret in R. cbn [fst snd] in R. injection R as <- <- <-.
    destruct (pending_bound lim (s_size s) n Hl Hs Hn) as (_ & Hb). assert (Nx := pending_next lim (s_size s) n Hl Hs Hn).
    destruct o as [sets|f]; cbn [ev_step] in E.
    + unfold mbind in E. destruct (ev_grow b lim s v w) as [[[[p|k] v3]| | |] w3] eqn:E3; try discriminate;
        unfold holding in H; assert (L := ev_grow_len b lim s v w _ _ _ Hs Hl ltac:(lia) Hu E3); cbv beta iota in L.
      * destruct (ev_set b e s sets p v3 w3) as [[v4| | |] w4] eqn:E4; try discriminate. unfold mret in E. injection E as <- <- <-.
        apply ev_set_len in E4.
        replace (n + Z.of_nat (List.length (kept (EGrow sets :: ops) (true :: y)))) with ((n + 1) + Z.of_nat (List.length (kept ops y)))
          by (cbn [kept List.length]; lia).
        eapply IH; [lia| |exact E2]. unfold holding. rewrite Nx, E4, L, H. destruct (lim <? _); lia.
      * unfold mret in E. injection E as <- <- <-. cbn [kept]. eapply IH; [exact Hn| |exact E2]. unfold holding. congruence.
    + injection E as <- <- <-. cbn [kept]. eapply IH; [exact Hn|exact H|exact E2].
Qed.

Lemma Forall2_firstn {A B} (R : A -> B -> Prop) l l' : Forall2 R l l' -> forall j, Forall2 R (firstn j l) (firstn j l').
Proof. induction 1; intros [|j]; cbn [firstn]; constructor; auto. Qed.

Lemma ev_buffer b e lim st name schema s ops w v w1 flags v' w2 : 8 <= lim -> lim + 2 * s_size s < usize_limit ->
  wf_struct s -> maps_ok w -> fresh_name st name w ->
  Forall (ev_op_ok st name s) ops -> grows ops * s_size s + 16 <= isize_max ->
  create_external_vector b e st name schema w = (Ret (Ok v), w1) ->
  ev_run b e lim s ops v w1 = (Ret (flags, v'), w2) ->
  let n := Z.of_nat (List.length (kept ops flags)) in
  let k := pending lim (s_size s) n in
  len (ev_data v') = 8 + k * s_size s /\ h_size (ev_handle v') = (n - k) * s_size s /\
  (Forall (eq true) flags -> exists d, array_of s d (firstn (Z.to_nat (n - k)) (elements s (kept ops flags))) /\
     bytes_at (cell_at st name) w2 = Some (zeros 8 ++ d)).
Proof.
  intros Hl Hu Hwf MO F Ops HL C R n k. pose proof Hwf as (Hpos & _).
  destruct (create_ev_cases b e st name schema s w _ w1 F C) as (S1 & X).
  destruct X as [(v0 & E0 & I1)|(_ & Fo & _)]; [|destruct Fo as [(k0 & ?)|?]; discriminate].
  injection E0 as <-. assert (MO1 : maps_ok w1) by (eapply maps_ok_caches; [apply S1|auto]).
  assert (Hb := ev_run_len b e lim s ops Hpos Hl Hu 0 v w1 flags v' w2 ltac:(lia)).
  assert (H0 : holding lim s 0 v). { destruct I1 as (D & _). unfold holding. rewrite D. reflexivity. }
  specialize (Hb H0 R). rewrite Z.add_0_l in Hb. unfold holding in Hb. fold n in Hb. fold k in Hb.
  destruct (ev_run_cases b e lim s st name schema ops Hwf Ops v w1 [] [] [] (zeros 8) _ w2 I1 MO1 ltac:(simpl; lia) R)
    as (MO2 & X).
  destruct X as [(fl & v1 & W & rest & c & E1 & Lf & I2 & C2 & _)|(E1 & _)]; [|discriminate].
  injection E1 as <- <-. simpl app in I2.
  assert (Bs := ev_inv_bytes _ _ _ _ _ _ _ _ _ _ I2). destruct Bs as (BW & Br & Lr).
  rewrite elements_length in Lr. fold n in Lr.
  pose proof I2 as (D1 & D2 & Bc & (ms & Em & G) & Hw).
  assert (Sz := writing_size _ _ _ _ _ _ _ Hw). split; [exact Hb|].
  assert (Lrest : len rest = k * s_size s). { rewrite D1, len_app, len_zeros in Hb by lia. lia. }
  assert (LW : len W = (n - k) * s_size s) by lia.
  split; [congruence|]. intros Ht. exists W. split; [|rewrite <- (C2 eq_refl Ht); eapply writing_bytes; eauto].
  assert (Hk : 0 <= k <= n). { apply (pending_bound lim (s_size s) n); unfold n; lia. }
  set (j := Z.to_nat (n - k)).
  assert (Gj : goods s (firstn j ms) (firstn j (elements s (kept ops flags)))).
  { apply Forall2_firstn. exact G. }
  exists (firstn j ms). split; [|apply goods_encodes; exact Gj].
  assert (Lj := goods_len _ _ _ Gj). rewrite firstn_length, elements_length in Lj.
  assert (Ej : Z.of_nat (Nat.min j (List.length (kept ops flags))) = n - k) by (unfold j, n in *; lia). rewrite Ej in Lj.
  rewrite <- (app_firstn W rest _ eq_refl). rewrite Em.
  replace (List.length W) with (List.length (List.concat (firstn j ms))) by (unfold len in *; lia).
  rewrite <- (firstn_skipn j ms) at 2. rewrite concat_app. eapply app_firstn; reflexivity.
Qed.

(** * Multivectors *)
Lemma item_add_len b e ts t sets d d' : 0 <= s_size (v_struct ts t) -> len d + 1 + s_size (v_struct ts t) < usize_limit ->
  item_add b e ts t sets d = Ret d' -> len d' = len d + 1 + s_size (v_struct ts t).
Proof.
  intros Hs Hu. pose proof (len_nonneg d). unfold item_add, obind, uadd. rewrite !wrap_ok by lia.
  destruct (vec_resize _ _) as [d1| | |] eqn:E1; try discriminate. apply resize_len in E1; [|lia].
  destruct (usub b (len d) _) as [p| | |]; try discriminate. destruct (negb _); [discriminate|].
  destruct (mem_write _ _ _) as [d2| | |] eqn:E2; try discriminate. apply mem_write_len in E2.
  destruct (usub b (1 + len d) _) as [q| | |]; try discriminate. destruct (slice_from _ _) as [y| | |]; try discriminate.
  intros H0. apply through_len in H0. lia.
Qed.

Lemma items_add_len b e ts items : Forall (fun x => 0 <= s_size (v_struct ts (fst x))) items -> forall d d',
  len d + items_size ts items < usize_limit -> items_add b e ts items d = Ret d' -> len d' = len d + items_size ts items.
Proof.
  induction 1 as [|[t sets] items Ht Hr IH]; intros d d' Hu; cbn [items_add items_size fst] in *.
  - intros H. injection H as <-. lia.
  - assert (Nn : 0 <= items_size ts items). { clear - Hr. induction Hr; cbn [items_size]; lia. }
    unfold obind. destruct (item_add _ _ _ _ _ _) as [d1| | |] eqn:E; try discriminate. apply item_add_len in E; [|lia|lia].
    intros H. rewrite (IH d1 d' ltac:(lia) H). lia.
Qed.

Lemma mv_flush_len b v w r v' w' : mv_flush b v w = (Ret (r, v'), w') -> mv_index v' = mv_index v /\
  len (mv_data v') = match r with Ok _ => 8 | Er _ => len (mv_data v) end.
Proof.
  unfold mv_flush, mbind, lift. intros R.
  destruct (usub b _ _) as [n| | |]; try discriminate. destruct (slice_range _ _ _) as [d| | |]; try discriminate.
  destruct (handle_write _ _ _ _) as [[[[u|k] h]| | |] w1]; try discriminate.
  - destruct (uadd _ _ _) as [f| | |]; try discriminate. unfold mret in R; injection R as <- <- <-; split; reflexivity.
  - unfold mret in R; injection R as <- <- <-; split; reflexivity.
Qed.

Lemma mv_index_len b e lim size bits v w r v' w' : 0 < size -> 8 <= lim -> len (ev_data (mv_index v)) <= lim + size -> lim + 2 * size < usize_limit ->
  mv_add_to_index b e lim size bits v w = (Ret (r, v'), w') -> mv_data v' = mv_data v /\
  len (ev_data (mv_index v')) = match r with
    | Ok _ => (if lim <? len (ev_data (mv_index v)) then 8 else len (ev_data (mv_index v))) + size
    | Er _ => len (ev_data (mv_index v))
    end.
Proof.
  intros Hs Hl Hd Hu R. unfold mv_add_to_index in R. cbv zeta in R. unfold mbind at 1 in R.
  destruct (ev_grow b lim (index_struct size bits) (mv_index v) w) as [[[[p|k] i]| | |] w1] eqn:E; try discriminate.
  - assert (L := ev_grow_len b lim (index_struct size bits) _ _ _ _ _ Hs Hl Hd Hu E). cbv beta iota in L.
    unfold mbind, lift in R. destruct (uadd _ _ _) as [x| | |]; try discriminate. destruct (usub _ _ _) as [y| | |]; try discriminate.
    destruct (ev_set _ _ _ _ _ _ _) as [[i'| | |] w2] eqn:E2; try discriminate. apply ev_set_len in E2.
    unfold mret in R. injection R as <- <- <-. split; [reflexivity|]. cbn [mv_index]. rewrite E2. exact L.
  - assert (L := ev_grow_len b lim (index_struct size bits) _ _ _ _ _ Hs Hl Hd Hu E). cbv beta iota in L.
    unfold mret in R. injection R as <- <- <-. split; [reflexivity|exact L].
Qed.

(** The buckets [p] are in the buffer. *)
Definition mv_holding (lim size : Z) (ts : vdesc) (n : Z) (p : list Z) (v : multi_vec) : Prop :=
  len (mv_data v) = 8 + sum p /\ still_pending lim p /\
  len (ev_data (mv_index v)) = 8 + pending lim size n * size.

Lemma sum_app a b : sum (a ++ b) = sum a + sum b.
Proof. induction a as [|x a IH]; cbn; [reflexivity|]. unfold sum in *. rewrite IH. lia. Qed.

Lemma still_pending_nil lim : still_pending lim [].
Proof. intros [|? ?] last H; discriminate. Qed.
Lemma still_pending_snoc lim p x : 8 + sum p <= lim -> still_pending lim (p ++ [x]).
Proof. intros H front last E. apply app_inj_tail in E as (<- & _). exact H. Qed.

Lemma mv_run_len b e lim size bits ts ops : 0 < size -> 8 <= lim -> lim + 2 * size < usize_limit ->
  Forall (fun o => match o with MGrow items => Forall (fun x => 0 <= s_size (v_struct ts (fst x))) items | MOther _ => True end) ops ->
  forall all p v w flags v' w', sum (map (items_size ts) all) + mv_size ts ops + 8 < usize_limit ->
  (exists q, map (items_size ts) all = q ++ p) -> Forall (fun x => 0 <= x) (map (items_size ts) all) ->
  mv_holding lim size ts (Z.of_nat (List.length all)) p v ->
  mv_run b e lim size bits ts ops v w = (Ret (flags, v'), w') ->
  exists q p', map (items_size ts) (all ++ mv_kept ops flags) = q ++ p' /\
    mv_holding lim size ts (Z.of_nat (List.length (all ++ mv_kept ops flags))) p' v'.
Proof.
  intros Hs Hl Hu Hops. induction Hops as [|o ops Ho Hops IH]; intros all p v w flags v' w' Hz Hq Ha H R; cbn [mv_run] in R.
  - unfold mret in R. injection R as <- <- <-. cbn [mv_kept]. rewrite app_nil_r. destruct Hq as (q & Hq). exists q, p. auto.
  - unfold mbind at 1 in R. destruct (mv_step b e lim size bits ts o v w) as [[[x v1]| | |] w1] eqn:E; try discriminate.
    unfold mbind in R. cbn [fst snd] in R. destruct (mv_run b e lim size bits ts ops v1 w1) as [[[y v2]| | |] w2] eqn:E2; try discriminate.
    unfold mret in R. cbn [fst snd] in R. injection R as <- <- <-.
    assert (Nn : forall l, Forall (fun x => 0 <= x) l -> 0 <= sum l).
    { induction 1 as [|z l Z1 _ IHl]; unfold sum in *; cbn; lia. }
    assert (No : 0 <= mv_size ts ops).
    { clear - Hops. induction Hops as [|o ops Ho Hops IH]; cbn [mv_size]; [lia|]. destruct o as [items|f]; auto.
      assert (0 <= items_size ts items) by (clear - Ho; induction Ho; cbn [items_size]; lia). lia. }
    destruct o as [items|f]; cbn [mv_step mv_size] in *.
    + assert (Ni : 0 <= items_size ts items) by (clear - Ho; induction Ho; cbn [items_size]; lia).
      destruct H as (H1 & H2 & H3). assert (Nx := pending_next lim size (Z.of_nat (List.length all)) Hl Hs ltac:(lia)).
      destruct (pending_bound lim size (Z.of_nat (List.length all)) Hl Hs ltac:(lia)) as (_ & Hb).
      destruct Hq as (q & Hq).
      assert (Hqp : 0 <= sum q /\ 0 <= sum p /\ sum (map (items_size ts) all) = sum q + sum p).
      { rewrite Hq, sum_app. rewrite Hq in Ha. apply Forall_app in Ha as (A1 & A2). auto. }
      (* the part after the flush *)
      assert (Rest : forall p1 v3 w3, (exists q1, map (items_size ts) all = q1 ++ p1) -> 8 + sum p1 <= lim -> sum p1 <= sum p ->
        len (mv_data v3) = 8 + sum p1 -> mv_index v3 = mv_index v ->
        mbind (mv_add_to_index b e lim size bits v3) (fun r : result unit io_kind * multi_vec => match r with
          | (Ok _, v) => let! v := mv_add b e ts items v in mret (true, v)
          | (Er _, v) => mret (false, v) end) w3 = (Ret (x, v1), w1) ->
        exists q1 p2, map (items_size ts) (all ++ mv_kept (MGrow items :: ops) (x :: y)) = q1 ++ p2 /\
          mv_holding lim size ts (Z.of_nat (List.length (all ++ mv_kept (MGrow items :: ops) (x :: y)))) p2 v2).
      { intros p1 v3 w3 (q1 & Hq1) Lp Lp2 D3 I3 R3. unfold mbind at 1 in R3.
        destruct (mv_add_to_index b e lim size bits v3 w3) as [[[r v4]| | |] w4] eqn:E4; try discriminate.
        destruct (mv_index_len b e lim size bits v3 w3 r v4 w4 Hs Hl ltac:(rewrite I3; lia) Hu E4) as (D4 & L4). rewrite I3 in L4.
        destruct r as [u|k].
        - unfold mbind, mv_add, lift in R3. unfold mbind in R3. rewrite D4 in R3.
          destruct (items_add b e ts items (mv_data v3)) as [d| | |] eqn:E5; try discriminate.
          apply items_add_len in E5; [|exact Ho|lia]. unfold mret in R3. injection R3 as <- <- <-.
          cbn [mv_kept]. replace (all ++ items :: mv_kept ops y) with ((all ++ [items]) ++ mv_kept ops y) by (rewrite <- app_assoc; reflexivity).
          eapply (IH (all ++ [items]) (p1 ++ [items_size ts items])); [| | | |exact E2].
          + rewrite map_app, sum_app. cbn. lia.
          + exists q1. rewrite map_app, Hq1, <- app_assoc. reflexivity.
          + rewrite map_app. apply Forall_app. split; auto. repeat constructor. lia.
          + split; [|split]; cbn [mv_data mv_index].
            * rewrite sum_app. cbn. lia.
            * apply still_pending_snoc. exact Lp.
            * rewrite app_length, Nat2Z.inj_add. cbn [List.length]. change (Z.of_nat 1) with 1. rewrite Nx, L4, H3. destruct (lim <? _); lia.
        - unfold mret in R3. injection R3 as <- <- <-. cbn [mv_kept].
          eapply (IH all p1); [lia|eauto|exact Ha| |exact E2].
          split; [rewrite D4; exact D3|]. split; [|rewrite L4; exact H3].
          intros front last Ef. assert (0 <= last).
          { rewrite Hq1, Ef in Ha. apply Forall_app in Ha as (_ & A2). apply Forall_app in A2 as (_ & A3). inversion A3; auto. }
          rewrite Ef, sum_app in Lp. cbn in Lp. lia. }
      unfold mv_grow in E. unfold mbind at 1 in E. unfold mbind at 1 in E. destruct (lim <? len (mv_data v)) eqn:El.
      * destruct (mv_flush b v w) as [[[[u|k] v3]| | |] w3] eqn:E3; try discriminate; destruct (mv_flush_len _ _ _ _ _ _ E3) as (I3 & D3).
        -- eapply (Rest []); [|cbn; lia|cbn; lia|exact D3|exact I3|exact E].
           exists (map (items_size ts) all). rewrite app_nil_r. reflexivity.
        -- unfold mret in E. injection E as <- <- <-. cbn [mv_kept].
           eapply (IH all p); [lia|eauto|exact Ha| |exact E2]. split; [congruence|]. split; [exact H2|congruence].
      * unfold mret in E at 1. eapply (Rest p); [eauto|lia|lia|exact H1|reflexivity|exact E].
    + injection E as <- <- <-. cbn [mv_kept]. eapply (IH all p); eauto.
Qed.

Lemma item_len ts m x : item_encodes ts m (item_value ts x) -> len m = 1 + s_size (v_struct ts (fst x)).
Proof. intros (_ & m' & -> & E). rewrite len_cons. destruct E as (_ & L & _). cbn [item_value fst] in L. unfold len in *. lia. Qed.

Lemma bucket_len ts items : forall m, bucket_of ts m (map (item_value ts) items) -> len m = items_size ts items.
Proof.
  induction items as [|x items IH]; intros m (ms & -> & F); inversion F as [|m1 y ms1 l1 E F1]; subst; [reflexivity|].
  cbn [List.concat items_size]. rewrite len_app, (item_len _ _ _ E), (IH (List.concat ms1)); [lia|]. exists ms1. auto.
Qed.

Lemma buckets_len ts l : forall bs, Forall2 (bucket_of ts) bs (buckets ts l) -> len (List.concat bs) = sum (map (items_size ts) l).
Proof.
  induction l as [|x l IH]; intros bs F; inversion F as [|m1 y ms1 l1 E F1]; subst; [reflexivity|].
  cbn [List.concat map]. rewrite len_app, (bucket_len _ _ _ E), (IH _ F1). reflexivity.
Qed.

Lemma map_split {A B} (f : A -> B) (l : list A) : forall q p, map f l = q ++ p -> exists a c, l = a ++ c /\ map f a = q /\ map f c = p.
Proof.
  induction l as [|x l IH]; intros [|y q] p E.
  - exists [], []. auto.
  - discriminate.
  - exists [], (x :: l). auto.
  - cbn in E. injection E as <- E. destruct (IH _ _ E) as (a & c & -> & <- & <-). exists (x :: a), c. auto.
Qed.

Lemma mv_buffer b e lim size bits ts st name schema ops w v w1 flags v' w2 : 8 <= lim -> lim + 2 * size < usize_limit ->
  wf_struct (index_struct size bits) -> wf_vdesc ts -> valid_name name -> maps_ok w ->
  mv_fresh st name w -> Forall (mv_op_ok st name ts) ops -> mv_fits size bits ts ops ->
  create_multi_vector b e st name schema w = (Ret (Ok v), w1) ->
  mv_run b e lim size bits ts ops v w1 = (Ret (flags, v'), w2) ->
  len (ev_data (mv_index v')) = 8 + pending lim size (Z.of_nat (List.length (mv_kept ops flags))) * size /\
  exists out kept, mv_kept ops flags = out ++ kept /\ still_pending lim (map (items_size ts) kept) /\
    len (mv_data v') = 8 + sum (map (items_size ts) kept) /\
    h_size (mv_handle v') = sum (map (items_size ts) out) /\
    (Forall (eq true) flags -> exists bs, Forall2 (bucket_of ts) bs (buckets ts out) /\
       bytes_at (cell_at st name) w2 = Some (zeros 8 ++ List.concat bs)).
Proof.
  intros Hl Hu Hwi Hwf Hn MO F Ops (HB & HL & HI) C R. pose proof Hwi as (Hpos & _). change (s_size (index_struct size bits)) with size in Hpos.
  destruct (create_mv_cases b e size bits ts st name schema Hn w _ w1 F C) as (S1 & X).
  destruct X as [(v0 & E0 & I1)|(_ & [[(k & Fo)|Fo]|Fo] & _)]; try discriminate. injection E0 as <-.
  assert (MO1 : maps_ok w1) by (eapply maps_ok_caches; [apply S1|auto]).
  assert (H0 : mv_holding lim size ts 0 [] v).
  { destruct I1 as (Wi & ri & ci & Wd & rd & cd & (D1 & _ & _ & (ms & Em & G) & _) & D2 & _ & _ & Ec & _).
    cbn in Ec. apply app_eq_nil in Ec as (-> & ->). cbn in G. inversion G; subst. cbn in Em. apply app_eq_nil in Em as (-> & ->).
    split; [rewrite D2; reflexivity|]. split; [apply still_pending_nil|]. rewrite D1. reflexivity. }
  assert (Hops : Forall (fun o => match o with MGrow items => Forall (fun x => 0 <= s_size (v_struct ts (fst x))) items | MOther _ => True end) ops).
  { eapply Forall_impl; [|exact Ops]. intros [items|f] Ho; [|exact I]. cbn [mv_op_ok] in Ho. eapply Forall_impl; [|exact Ho].
    intros x (Ht & _). destruct (wf_vdesc_nth ts (fst x) Hwf Ht) as (_ & (Hp & _)). lia. }
  destruct (mv_run_len b e lim size bits ts ops Hpos Hl Hu Hops [] [] v w1 flags v' w2) as (q & p & Eqp & H1 & H2 & H3).
  { cbn. unfold isize_max, usize_limit in *. lia. }
  { exists []. reflexivity. }
  { constructor. }
  { exact H0. }
  { exact R. }
  simpl app in Eqp, H3. split; [exact H3|].
  destruct (map_split _ _ _ _ Eqp) as (out & kp & Ek & <- & <-). exists out, kp. split; [exact Ek|]. split; [exact H2|]. split; [exact H1|].
  destruct (mv_run_cases b e lim size bits ts st name schema Hwi Hwf Hn ops Ops v w1 [] [] true _ w2 I1 MO1 ltac:(simpl; rewrite len_nil; lia)
    ltac:(simpl; rewrite len_nil; lia) ltac:(simpl; lia) R) as (MO2 & _ & X).
  destruct X as [(fl & v1 & bs & clean & E & Lf & I2 & A1 & A2 & C2 & _)|(E & _)]; [|discriminate]. injection E as <- <-.
  simpl app in I2.
  destruct I2 as (Wi & ri & ci & Wd & rd & cd & _ & D1 & _ & _ & Ec & Fb & Hw & Cl).
  assert (Sz := writing_size _ _ _ _ _ _ _ Hw). rewrite Ek in Fb. unfold buckets in Fb. rewrite map_app in Fb.
  apply Forall2_app_inv_r in Fb as (bs1 & bs2 & F1 & F2 & ->).
  assert (L1 := buckets_len ts out bs1 F1). assert (L2 := buckets_len ts kp bs2 F2).
  assert (L := f_equal len Ec). rewrite concat_app, !len_app in L. rewrite D1, len_app, len_zeros in H1 by lia.
  split; [lia|]. intros Ht. destruct (Cl (C2 eq_refl Ht)) as (_ & ->). exists bs1. split; [exact F1|].
  rewrite (writing_bytes _ _ _ _ _ _ _ Hw). do 2 f_equal.
  rewrite <- (app_firstn Wd rd _ eq_refl), Ec, concat_app.
  replace (List.length Wd) with (List.length (List.concat bs1)) by (unfold len in *; lia). eapply app_firstn; reflexivity.
Qed.
