(** Facts about slicing and iterating multi array views. *)
From Verif Require Import Base BaseFacts Codec CodecSpec CodecFacts Structs StructsSpec StructsFacts.
From Verif Require Import Views ViewsSpec ViewsFacts Storage PathFacts StorageSpec Writers WritersSpec EncodeFacts.
From Verif Require Import MultiViews MultiSpec MultiViewFacts.
Local Open Scope list_scope.
Local Open Scope Z_scope.

(** * Lists *)
Lemma pairs_cons {A} (x y : A) r : pairs (x :: y :: r) = (x, y) :: pairs (y :: r).
Proof. reflexivity. Qed.

Lemma pairs_length {A} (l : list A) : length (pairs l) = (length l - 1)%nat.
Proof.
  induction l as [|x l IH]; auto. destruct l as [|y l]; auto. rewrite pairs_cons. simpl length in *. lia.
Qed.

Lemma pairs_skipn {A} n (l : list A) : pairs (skipn n l) = skipn n (pairs l).
Proof.
  revert l. induction n as [|n IH]; intros l; [reflexivity|]. destruct l as [|x l]; [reflexivity|].
  destruct l as [|y l].
  - simpl skipn at 1. rewrite !skipn_nil. reflexivity.
  - rewrite pairs_cons. change (skipn (S n) (x :: y :: l)) with (skipn n (y :: l)). rewrite IH. reflexivity.
Qed.

Lemma pairs_firstn {A} n (l : list A) : pairs (firstn (S n) l) = firstn n (pairs l).
Proof.
  revert l. induction n as [|n IH]; intros l; [destruct l; reflexivity|]. destruct l as [|x l]; [reflexivity|].
  destruct l as [|y l]; [reflexivity|]. rewrite pairs_cons.
  change (firstn (S (S n)) (x :: y :: l)) with (x :: firstn (S n) (y :: l)).
  change (firstn (S n) (y :: l)) with (y :: firstn n l) at 1. rewrite pairs_cons.
  change (y :: firstn n l) with (firstn (S n) (y :: l)). rewrite IH. reflexivity.
Qed.

Lemma pairs_sublist {A} a n (l : list A) : 0 <= n -> pairs (sublist a (n + 1) l) = sublist a n (pairs l).
Proof.
  intros Hn. unfold sublist. replace (Z.to_nat (n + 1)) with (S (Z.to_nat n)) by lia.
  rewrite pairs_firstn, pairs_skipn. reflexivity.
Qed.

Lemma pairs_nth {A} (l : list A) i d : (S i < length l)%nat -> nth i (pairs l) (d, d) = (nth i l d, nth (S i) l d).
Proof.
  revert i. induction l as [|x l IH]; intros i Hi; [simpl in Hi; lia|]. destruct l as [|y l]; [simpl in Hi; lia|].
  rewrite pairs_cons. destruct i; [reflexivity|]. cbn [nth]. rewrite IH by (simpl in *; lia). reflexivity.
Qed.

Lemma sublist_all {A} (l : list A) n : Z.of_nat (length l) <= n -> sublist 0 n l = l.
Proof. intros H. unfold sublist. simpl. apply firstn_all2. lia. Qed.

Lemma Forall2_length {A B} (R : A -> B -> Prop) l k : Forall2 R l k -> length l = length k.
Proof. induction 1; simpl; lia. Qed.

Lemma Forall2_sublist {A B} (R : A -> B -> Prop) a n l k : Forall2 R l k -> Forall2 R (sublist a n l) (sublist a n k).
Proof.
  unfold sublist. intros F. generalize (Z.to_nat n). clear n. intros n.
  assert (G : Forall2 R (skipn (Z.to_nat a) l) (skipn (Z.to_nat a) k)).
  { generalize (Z.to_nat a). intros i. revert l k F. induction i; intros l k F; auto. destruct F; simpl; auto. }
  revert G. generalize (skipn (Z.to_nat a) l) (skipn (Z.to_nat a) k). clear. induction n; intros l k F; [constructor|].
  destruct F; simpl; constructor; auto.
Qed.

(** * Index entries *)
Section Env.
Variables (b : build) (e : endian) (size bits : Z).
Let is := index_struct size bits.
Hypothesis Hwf : wf_struct is.

Lemma index_pos : 0 < size.
Proof. destruct Hwf as (H & _). exact H. Qed.

Lemma offsets_length v : slice_ok (ma_index v) -> Z.of_nat (length (offsets size bits v)) = av_len is (ma_index v).
Proof. intros H. unfold offsets. rewrite map_length. symmetry. apply records_nil_iff; auto. exact index_pos. Qed.

Lemma offsets_small v : slice_ok (ma_index v) -> Z.of_nat (length (offsets size bits v)) <= isize_max.
Proof.
  intros H. rewrite offsets_length by auto. destruct H as (H1 & H2 & _). pose proof index_pos. unfold av_len. simpl.
  assert (sl_len (ma_index v) / size <= sl_len (ma_index v)) by (apply Z.div_le_upper_bound; nia). lia.
Qed.

Lemma get_index_all m x : get_all b e is m = Ret [x] -> get_index b e bits m = Ret x.
Proof.
  unfold get_all, is. cbn [s_fields index_struct get_fields]. unfold get_index. destruct (get_field b e (mkField U64 0 bits) m); simpl; intros H; inversion H; auto.
Qed.

Lemma index_records m : exists x, records is m = map (fun y => [y]) x /\ map (hd 0) (records is m) = x.
Proof.
  unfold records. induction (seq 0 (Z.to_nat (len m / s_size is))) as [|i l (x & H1 & H2)].
  - exists []. auto.
  - exists (hd 0 (decode is (chunk (s_size is) m i)) :: x). cbn [map]. rewrite H1, <- H1, H2. split; auto.
Qed.

Lemma mav_index_at_ok v i : slice_ok (ma_index v) -> 0 <= i < Z.of_nat (length (offsets size bits v)) ->
  mav_index_at b e size bits v i = Ret (nth (Z.to_nat i) (offsets size bits v) 0).
Proof.
  intros Hv Hi. rewrite offsets_length in Hi by auto. unfold mav_index_at. fold is.
  destruct (av_at_spec b e is (ma_index v) i Hwf Hv Hi) as (m & -> & _ & _ & _ & G). simpl obind.
  apply get_index_all. rewrite G. unfold offsets. fold is.
  destruct (index_records (sl_bytes (ma_index v))) as (x & E & _). rewrite E, map_map. simpl. rewrite map_id. f_equal.
  assert (Hl : (Z.to_nat i < length x)%nat).
  { rewrite records_nil_iff, E, map_length in Hi; auto; [lia|exact index_pos]. }
  rewrite (nth_indep _ [] [0]) by (rewrite map_length; auto).
  change [0] with ((fun y => [y]) 0) at 1. rewrite map_nth. reflexivity.
Qed.

Lemma mav_len_ok v : slice_ok (ma_index v) -> offsets size bits v <> [] ->
  mav_len b size bits v = Ret (Z.of_nat (length (pairs (offsets size bits v)))).
Proof.
  intros Hv Hn. unfold mav_len. fold is. rewrite <- offsets_length by auto.
  pose proof (offsets_small v Hv) as Hs. unfold usub. destruct (offsets size bits v) as [|x l] eqn:E; [congruence|].
  rewrite pairs_length. simpl length in *. unfold isize_max in Hs. rewrite wrap_ok by (unfold usize_limit; lia). f_equal. lia.
Qed.

Lemma mav_at_ok v i : mav_ok v -> 0 <= i < Z.of_nat (length (pairs (offsets size bits v))) ->
  mav_at b e size bits v i = between (ma_data v) (nth (Z.to_nat i) (pairs (offsets size bits v)) (0, 0)).
Proof.
  intros (Hv & _) Hi. pose proof (offsets_small v Hv) as Hs. unfold isize_max in Hs. rewrite pairs_length in Hi.
  unfold mav_at. rewrite mav_index_at_ok by (auto; lia). simpl obind. unfold uadd.
  rewrite wrap_ok by (unfold usize_limit; lia). simpl obind. rewrite mav_index_at_ok by (auto; lia). simpl obind.
  rewrite pairs_nth by lia. unfold between. simpl. do 2 f_equal. lia.
Qed.

Lemma mav_slice_ok v lo hi : mav_ok v -> offsets size bits v <> [] -> bound_usize lo -> bound_usize hi ->
  let n := Z.of_nat (length (pairs (offsets size bits v))) in
  range_lo lo <= range_hi hi n <= n ->
  exists w, mav_slice b size bits v lo hi = Ret w /\ mav_ok w /\ ma_data w = ma_data v /\
    offsets size bits w = sublist (range_lo lo) (range_hi hi n - range_lo lo + 1) (offsets size bits v) /\
    offsets size bits w <> [] /\
    pairs (offsets size bits w) = sublist (range_lo lo) (range_hi hi n - range_lo lo) (pairs (offsets size bits v)).
Proof.
  intros (Hv & Hd) Hne Hlo Hhi n Hr. pose proof (offsets_small v Hv) as Hs. unfold isize_max in Hs.
  assert (Hn : Z.of_nat (length (offsets size bits v)) = n + 1).
  { unfold n. rewrite pairs_length. destruct (offsets size bits v); [congruence|]. simpl length. lia. }
  assert (H0 : 0 <= range_lo lo) by (destruct lo; simpl in *; unfold is_usize in *; lia).
  unfold mav_slice.
  replace (match lo with Included i => Ret i | Excluded i => uadd b i 1 | Unbounded => Ret 0 end) with (Ret (range_lo lo)).
  2:{ destruct lo; simpl in *; auto. unfold uadd. rewrite wrap_ok by (unfold usize_limit; lia). auto. }
  simpl obind.
  replace (match hi with Included i => uadd b i 2 | Excluded i => uadd b i 1 | Unbounded => Ret (av_len (index_struct size bits) (ma_index v)) end)
    with (Ret (range_hi hi n + 1)).
  2:{ destruct hi; simpl in *; unfold uadd, is_usize in *; rewrite ?wrap_ok by (unfold usize_limit; lia); f_equal; try lia.
      fold is. rewrite <- offsets_length by auto. lia. }
  simpl obind. pose proof (offsets_length v Hv) as Hol. fold is.
  destruct (av_slice_spec b is (ma_index v) (Included (range_lo lo)) (Excluded (range_hi hi n + 1)) Hwf Hv) as (w & E & Ow & Lw & Rw).
  { simpl. unfold is_usize, usize_limit. lia. }
  { simpl. unfold is_usize, usize_limit. lia. }
  { simpl. lia. }
  rewrite E. simpl obind. eexists. split; [reflexivity|].
  assert (Ho : offsets size bits (mkMav w (ma_data v)) = sublist (range_lo lo) (range_hi hi n - range_lo lo + 1) (offsets size bits v)).
  { unfold offsets. cbn [ma_index]. fold is. rewrite Rw. simpl range_lo. simpl range_hi. unfold sublist. rewrite <- firstn_map, <- skipn_map.
    f_equal. f_equal. lia. }
  split; [split; auto|]. split; [reflexivity|]. split; auto. split.
  { intros X. assert (Y := offsets_length (mkMav w (ma_data v)) Ow). rewrite X in Y. cbn [ma_index] in Y. rewrite Lw in Y. simpl in Y. lia. }
  rewrite Ho. apply pairs_sublist. lia.
Qed.

(** * Iteration *)
Lemma mav_empty_ok v : mav_ok v -> offsets size bits v <> [] ->
  mav_is_empty b size bits v = Ret (match pairs (offsets size bits v) with [] => true | _ => false end).
Proof.
  intros (Hv & _) Hn. unfold mav_is_empty. rewrite mav_len_ok by auto. simpl obind. f_equal.
  destruct (pairs (offsets size bits v)); simpl length; lia.
Qed.

Lemma mav_next_ok v : mav_ok v -> offsets size bits v <> [] ->
  match pairs (offsets size bits v) with
  | [] => mav_next b e size bits v = Ret (None, v)
  | p :: r => exists w, mav_next b e size bits v = (x <- between (ma_data v) p ;; Ret (Some x, w)) /\
      mav_ok w /\ offsets size bits w <> [] /\ ma_data w = ma_data v /\ pairs (offsets size bits w) = r
  end.
Proof.
  intros Hv Hn. pose proof Hv as (Hv1 & _). unfold mav_next. rewrite mav_empty_ok by auto. simpl obind.
  destruct (pairs (offsets size bits v)) as [|p r] eqn:E; [reflexivity|]. simpl negb. cbn iota.
  rewrite mav_at_ok by (auto; rewrite E; simpl length; lia). rewrite E. change (nth (Z.to_nat 0) (p :: r) (0, 0)) with p.
  destruct (mav_slice_ok v (Included 1) Unbounded Hv Hn) as (w & Ew & Hw & Dw & _ & Nw & Pw); simpl; auto.
  { unfold is_usize, usize_limit. lia. }
  { rewrite E. simpl length. lia. }
  exists w. rewrite Ew. simpl obind. split; [reflexivity|]. split; auto. split; auto. split; auto.
  rewrite Pw, E. simpl range_hi. simpl range_lo. unfold sublist. simpl length.
  change (skipn (Z.to_nat 1) (p :: r)) with r. apply firstn_all2. lia.
Qed.

Lemma mav_next_back_ok v : mav_ok v -> offsets size bits v <> [] ->
  match rev (pairs (offsets size bits v)) with
  | [] => mav_next_back b e size bits v = Ret (None, v)
  | p :: r => exists w, mav_next_back b e size bits v = (x <- between (ma_data v) p ;; Ret (Some x, w)) /\
      mav_ok w /\ offsets size bits w <> [] /\ ma_data w = ma_data v /\ pairs (offsets size bits w) = rev r
  end.
Proof.
  intros Hv Hn. pose proof Hv as (Hv1 & _). unfold mav_next_back. rewrite mav_empty_ok by auto. simpl obind.
  destruct (rev (pairs (offsets size bits v))) as [|p r] eqn:Er.
  { assert (E : pairs (offsets size bits v) = []) by (rewrite <- (rev_involutive (pairs _)), Er; auto). rewrite E. reflexivity. }
  assert (E : pairs (offsets size bits v) = rev r ++ [p]) by (rewrite <- (rev_involutive (pairs _)), Er; auto).
  replace (match pairs (offsets size bits v) with [] => true | _ => false end) with false
    by (rewrite E; destruct (rev r); reflexivity).
  simpl negb. cbn iota. rewrite mav_len_ok by auto. simpl obind.
  pose proof (offsets_small v Hv1) as Hs. unfold isize_max in Hs.
  pose proof (pairs_length (offsets size bits v)) as Lp.
  assert (L : length (pairs (offsets size bits v)) = S (length (rev r))) by (rewrite E, app_length; simpl; lia).
  unfold usub. rewrite wrap_ok by (unfold usize_limit; lia). simpl obind.
  rewrite mav_at_ok by (auto; lia). rewrite L.
  replace (Z.to_nat (Z.of_nat (S (length (rev r))) - 1)) with (length (rev r)) by lia.
  replace (nth (length (rev r)) (pairs (offsets size bits v)) (0, 0)) with p
    by (rewrite E, app_nth2, Nat.sub_diag by lia; reflexivity).
  destruct (mav_slice_ok v Unbounded (Excluded (Z.of_nat (S (length (rev r))) - 1)) Hv Hn) as (w & Ew & Hw & Dw & _ & Nw & Pw); simpl; auto.
  { unfold is_usize, usize_limit. lia. }
  { lia. }
  exists w. rewrite Ew. simpl obind. split; [reflexivity|]. split; auto. split; auto. split; auto.
  rewrite Pw, E. simpl range_hi. simpl range_lo. unfold sublist. simpl skipn.
  rewrite firstn_app. replace (Z.to_nat (Z.of_nat (S (length (rev r))) - 1 - 0)) with (length (rev r)) by lia.
  rewrite Nat.sub_diag, firstn_all. simpl. apply app_nil_r.
Qed.

Lemma between_cases d p : slice_ok d -> between d p = Panic \/ exists w, between d p = Ret w /\ slice_ok w /\ view_inside d w.
Proof. intros H. unfold between. destruct (slice_range_cases d (fst p) (snd p) H) as [|(w & H1 & H2 & H3 & _)]; eauto. Qed.

Lemma mav_iter_ok calls : forall v, mav_ok v -> offsets size bits v <> [] ->
  let ps := pairs (offsets size bits v) in
  exists w, mav_iter_run b e size bits calls v = (x <- open_all (ma_data v) (fst (deque_run calls ps)) ;; Ret (x, w)) /\
    mav_ok w /\ offsets size bits w <> [] /\ ma_data w = ma_data v /\ pairs (offsets size bits w) = snd (deque_run calls ps).
Proof.
  induction calls as [|c calls IH]; intros v Hv Hn ps.
  { exists v. simpl. auto. }
  cbn [mav_iter_run]. unfold ps. clear ps. pose proof Hv as (_ & Hd). destruct c.
  - pose proof (mav_next_back_ok v Hv Hn) as N. cbn [deque_run].
    destruct (rev (pairs (offsets size bits v))) as [|p r] eqn:Er.
    + assert (E : pairs (offsets size bits v) = []) by (rewrite <- (rev_involutive (pairs _)), Er; auto).
      rewrite N. simpl obind. destruct (IH v Hv Hn) as (w & Ew & Hw & Nw & Dw & Pw). rewrite E in *.
      exists w. rewrite Ew. cbn [fst snd open_all]. split; [|auto].
      clear. match goal with |- context [open_all ?d ?l] => destruct (open_all d l) end; reflexivity.
    + destruct N as (w1 & E1 & O1 & N1 & D1 & P1). rewrite E1.
      destruct (IH w1 O1 N1) as (w & Ew & Hw & Nw & Dw & Pw). exists w. rewrite <- P1. cbn [fst snd open_all].
      split; [|split; [auto|split; [auto|split; [congruence|auto]]]].
      destruct (between_cases (ma_data v) p Hd) as [->|(x & -> & _)]; [reflexivity|]. simpl obind.
      cbn [fst snd]. rewrite Ew, D1. clear. match goal with |- context [open_all ?d ?l] => destruct (open_all d l) end; reflexivity.
  - pose proof (mav_next_ok v Hv Hn) as N. cbn [deque_run].
    destruct (pairs (offsets size bits v)) as [|p r] eqn:E.
    + rewrite N. simpl obind. destruct (IH v Hv Hn) as (w & Ew & Hw & Nw & Dw & Pw). rewrite E in *.
      exists w. rewrite Ew. cbn [fst snd open_all]. split; [|auto].
      clear. match goal with |- context [open_all ?d ?l] => destruct (open_all d l) end; reflexivity.
    + destruct N as (w1 & E1 & O1 & N1 & D1 & P1). rewrite E1.
      destruct (IH w1 O1 N1) as (w & Ew & Hw & Nw & Dw & Pw). exists w. rewrite P1 in *. cbn [fst snd open_all].
      split; [|split; [auto|split; [auto|split; [congruence|auto]]]].
      destruct (between_cases (ma_data v) p Hd) as [->|(x & -> & _)]; [reflexivity|]. simpl obind.
      cbn [fst snd]. rewrite Ew, D1. clear. match goal with |- context [open_all ?d ?l] => destruct (open_all d l) end; reflexivity.
Qed.

(** * Views showing buckets *)
Definition shown (ts : vdesc) (v : mav) : Z * Z -> list value -> Prop := fun p x =>
  0 <= fst p <= snd p /\ snd p <= sl_len (ma_data v) /\
  bucket_of ts (sublist (fst p) (snd p - fst p) (sl_bytes (ma_data v))) x.

Lemma shown_open ts v p x : wf_vdesc ts -> mav_ok v -> shown ts v p x ->
  exists d, between (ma_data v) p = Ret d /\ slice_ok d /\ view_inside (ma_data v) d /\ bucket_of ts (sl_bytes d) x.
Proof.
  intros Hts (_ & Hd) (H1 & H2 & H3). unfold between.
  destruct (slice_range_cases (ma_data v) (fst p) (snd p) Hd) as [P|(w & R & Ow & Vw & _)].
  { rewrite slice_range_ok in P by lia. discriminate. }
  exists w. split; auto. split; auto. split; auto. rewrite (slice_range_bytes _ _ _ _ Hd R). auto.
Qed.

Lemma deque_rel {A B} (R : A -> B -> Prop) calls : forall l k, Forall2 R l k ->
  Forall2 (fun x y => match x, y with Some x, Some y => R x y | None, None => True | _, _ => False end)
    (fst (deque_run calls l)) (fst (deque_run calls k)) /\
  Forall2 R (snd (deque_run calls l)) (snd (deque_run calls k)).
Proof.
  induction calls as [|c calls IH]; intros l k F; [split; [constructor|exact F]|].
  destruct c; cbn [deque_run].
  - assert (G : Forall2 R (rev l) (rev k)).
    { clear IH. induction F; simpl; auto. apply Forall2_app; auto. }
    destruct G as [|x y l' k' H G]; cbn [fst snd].
    + destruct (IH [] [] ltac:(constructor)). split; auto.
    + assert (G' : Forall2 R (rev l') (rev k')).
      { clear IH F. induction G; simpl; auto. apply Forall2_app; auto. }
      destruct (IH _ _ G'). split; auto.
  - destruct F as [|x y l k H F]; cbn [fst snd].
    + destruct (IH [] [] ltac:(constructor)). split; auto.
    + destruct (IH _ _ F). split; auto.
Qed.

Lemma mav_shows_len ts v l : mav_shows ts size bits v l -> mav_len b size bits v = Ret (Z.of_nat (length l)).
Proof.
  intros ((Hv & _) & Hn & F). rewrite mav_len_ok by auto. rewrite (Forall2_length _ _ _ F). auto.
Qed.

Lemma mav_shows_at ts v l i : wf_vdesc ts -> mav_shows ts size bits v l -> 0 <= i < Z.of_nat (length l) ->
  exists d, mav_at b e size bits v i = Ret d /\ slice_ok d /\ view_inside (ma_data v) d /\
    bucket_of ts (sl_bytes d) (nth (Z.to_nat i) l []).
Proof.
  intros Hts (Hv & Hn & F) Hi. pose proof (Forall2_length _ _ _ F) as L.
  rewrite mav_at_ok by (auto; lia).
  apply shown_open; auto. assert (Hl : (Z.to_nat i < length l)%nat) by lia. clear - F Hl.
  fold (shown ts v) in F. revert Hl. generalize (Z.to_nat i). clear i. induction F as [|p x ps l H F IH]; intros i Hl; [simpl in Hl; lia|].
  destruct i; [exact H|]. apply IH. simpl in Hl. lia.
Qed.

Lemma mav_shows_slice ts v l lo hi : mav_shows ts size bits v l -> bound_usize lo -> bound_usize hi ->
  let n := Z.of_nat (length l) in
  range_lo lo <= range_hi hi n <= n ->
  exists w, mav_slice b size bits v lo hi = Ret w /\
    mav_shows ts size bits w (sublist (range_lo lo) (range_hi hi n - range_lo lo) l).
Proof.
  intros (Hv & Hn & F) Hlo Hhi n Hr. pose proof (Forall2_length _ _ _ F) as L.
  destruct (mav_slice_ok v lo hi Hv Hn Hlo Hhi) as (w & Ew & Hw & Dw & _ & Nw & Pw).
  { rewrite L. exact Hr. }
  rewrite L in Pw. fold n in Pw. exists w. split; auto. split; auto. split; auto. rewrite Pw, Dw. apply Forall2_sublist. auto.
Qed.

Lemma mav_shows_iter ts v l calls : wf_vdesc ts -> mav_shows ts size bits v l ->
  exists outs w, mav_iter_run b e size bits calls v = Ret (outs, w) /\
    Forall2 (bucket_yields_opt b e ts) outs (fst (deque_run calls l)) /\
    mav_shows ts size bits w (snd (deque_run calls l)).
Proof.
  intros Hts (Hv & Hn & F). fold (shown ts v) in F.
  destruct (mav_iter_ok calls v Hv Hn) as (w & Ew & Hw & Nw & Dw & Pw).
  destruct (deque_rel (shown ts v) calls _ _ F) as (F1 & F2).
  assert (G : exists outs, open_all (ma_data v) (fst (deque_run calls (pairs (offsets size bits v)))) = Ret outs /\
    Forall2 (bucket_yields_opt b e ts) outs (fst (deque_run calls l))).
  { clear - F1 Hts Hv. induction F1 as [|p x ps xs H F IH]; [exists []; split; [reflexivity|constructor]|].
    destruct IH as (outs & E & Fo). destruct p as [p|], x as [x|]; try contradiction; cbn [open_all].
    - destruct (shown_open ts v p x Hts Hv H) as (d & -> & Od & _ & Bd). simpl obind. rewrite E. simpl obind.
      eexists. split; [reflexivity|]. constructor; auto. apply bucket_yields_ok; auto.
    - rewrite E. simpl obind. eexists. split; [reflexivity|]. constructor; [exact I|auto]. }
  destruct G as (outs & Eo & Fo). rewrite Eo in Ew. exists outs, w. split; auto. split; auto.
  split; auto. split; auto. rewrite Pw, Dw. exact F2.
Qed.

Lemma mav_shows_take ts n : wf_vdesc ts -> forall v l, mav_shows ts size bits v l ->
  exists ls, mav_take b e size bits ts n v = Ret ls /\
    map_outcome (map_outcome (get_item b e ts)) ls = Ret (firstn n l).
Proof.
  intros Hts. induction n as [|n IH]; intros v l (Hv & Hn & F); [exists []; auto|]. cbn [mav_take]. fold (shown ts v) in F.
  pose proof (mav_next_ok v Hv Hn) as N. destruct F as [|p x ps xs H F].
  - rewrite N. simpl. exists []. auto.
  - destruct N as (w & Ew & Hw & Nw & Dw & Pw). rewrite Ew.
    destruct (shown_open ts v p x Hts Hv H) as (d & -> & Od & _ & Bd). simpl obind.
    destruct (item_collect_ok b e ts d x Hts Od Bd) as (is' & Ei & _ & Gi). simpl fst. cbn iota. rewrite Ei. simpl obind.
    destruct (IH w xs) as (ls & Els & Gls).
    { split; auto. split; auto. rewrite Pw, Dw. exact F. }
    simpl snd. rewrite Els. simpl obind. eexists. split; [reflexivity|]. simpl. rewrite Gi. simpl. rewrite Gls. reflexivity.
Qed.

Lemma mav_shows_debug ts v l : wf_vdesc ts -> mav_shows ts size bits v l ->
  mav_debug b e size bits ts v = Ret (Z.of_nat (length l), firstn 10 l, (10 <? length l)%nat).
Proof.
  intros Hts H. unfold mav_debug, mav_iter_len. rewrite (mav_shows_len ts v l H). cbn [obind].
  destruct (mav_shows_take ts (Z.to_nat DEBUG_PREVIEW_LEN) Hts v l H) as (ls & -> & G). cbn [obind]. rewrite G. cbn [obind].
  unfold DEBUG_PREVIEW_LEN. change (Z.to_nat 10) with 10%nat.
  replace (negb (Z.of_nat (length l) <=? 10)) with (10 <? length l)%nat; [reflexivity|].
  destruct (Nat.ltb_spec 10 (length l)); lia.
Qed.

(** * Arbitrary bytes *)
Lemma mav_index_at_safe v i : size <= isize_max -> slice_ok (ma_index v) -> is_usize i ->
  mav_index_at b e size bits v i = Panic \/ exists x, mav_index_at b e size bits v i = Ret x /\ is_usize x.
Proof.
  intros Hs Hv Hi. unfold mav_index_at. fold is. pose proof index_pos.
  destruct (av_at_safe b is (ma_index v) i) as [->|(p & Hp & Hpl & ->)]; auto. right. simpl obind.
  set (m := skipn (Z.to_nat p) (sl_mem (ma_index v))). pose proof Hv as (Hl & Hm & Hb).
  assert (Bm : bytes_ok m) by (apply bytes_ok_skipn; auto).
  assert (Lm : s_size is <= len m) by (unfold m; change (s_size is) with size in *; rewrite len_skipn by lia; lia).
  exists (field_value U64 m 0 bits). split.
  - apply get_index_all. rewrite get_all_decode by auto. reflexivity.
  - pose proof Hwf as (_ & Hf & _). inversion Hf as [|? ? (_ & Hb1 & _) _]; subst. simpl in Hb1.
    pose proof (field_value_in_range U64 m 0 bits ltac:(lia) ltac:(discriminate)) as R. unfold in_range in R. simpl in R.
    assert (2 ^ bits <= 2 ^ 64) by (apply Z.pow_le_mono_r; lia). unfold is_usize, usize_limit. simpl. lia.
Qed.

Lemma mav_at_safe v i : size <= isize_max -> mav_ok v -> is_usize i ->
  mav_at b e size bits v i = Panic \/
  exists d, mav_at b e size bits v i = Ret d /\ slice_ok d /\ view_inside (ma_data v) d.
Proof.
  intros Hs (Hv & Hd) Hi. unfold mav_at. destruct (mav_index_at_safe v i Hs Hv Hi) as [->|(x & -> & _)]; auto. simpl obind.
  unfold uadd. destruct (wrap_cases b (i + 1)) as [->|(j & -> & Hj)]; auto. simpl obind.
  destruct (mav_index_at_safe v j Hs Hv Hj) as [->|(y & -> & _)]; auto. simpl obind.
  destruct (slice_range_cases (ma_data v) x y Hd) as [|(w & E & O & V & _)]; auto. right. eauto.
Qed.

Lemma mav_slice_safe v lo hi : mav_ok v ->
  mav_slice b size bits v lo hi = Panic \/
  exists w, mav_slice b size bits v lo hi = Ret w /\ mav_ok w /\ ma_data w = ma_data v /\ view_inside (ma_index v) (ma_index w).
Proof.
  intros (Hv & Hd). unfold mav_slice.
  assert (X : forall (A : Type) (x : outcome A), x = x) by auto.
  assert (G : forall lo hi, av_slice b (index_struct size bits) (ma_index v) lo hi = Panic \/
    exists w, (i <- av_slice b (index_struct size bits) (ma_index v) lo hi ;; Ret (mkMav i (ma_data v))) = Ret w /\
      mav_ok w /\ ma_data w = ma_data v /\ view_inside (ma_index v) (ma_index w)).
  { intros lo' hi'. destruct (av_slice_safe b (index_struct size bits) (ma_index v) lo' hi' Hv) as [|(w & E & V & O)]; auto. right.
    rewrite E. simpl. eexists. split; [reflexivity|]. split; [split; auto|auto]. }
  assert (U : forall i k, uadd b i k = Panic \/ exists y, uadd b i k = Ret y).
  { intros i k. unfold uadd. destruct (wrap_cases b (i + k)) as [|(y & E & _)]; eauto. }
  assert (Lo : match lo with Included i => Ret i | Excluded i => uadd b i 1 | Unbounded => Ret 0 end = Panic \/
    exists y, match lo with Included i => Ret i | Excluded i => uadd b i 1 | Unbounded => Ret 0 end = Ret y).
  { destruct lo; eauto. }
  destruct Lo as [->|(x & ->)]; [left; reflexivity|]. simpl obind.
  assert (Hi : match hi with Included i => uadd b i 2 | Excluded i => uadd b i 1 | Unbounded => Ret (av_len (index_struct size bits) (ma_index v)) end = Panic \/
    exists y, match hi with Included i => uadd b i 2 | Excluded i => uadd b i 1 | Unbounded => Ret (av_len (index_struct size bits) (ma_index v)) end = Ret y).
  { destruct hi; eauto. }
  destruct Hi as [->|(y & ->)]; [left; reflexivity|]. simpl obind.
  destruct (G (Included x) (Excluded y)) as [->|(w & E & H)]; [left; reflexivity|]. right. rewrite E. eauto.
Qed.

Lemma usub_safe x y : usub b x y = Panic \/ exists z, usub b x y = Ret z /\ is_usize z.
Proof. unfold usub. destruct (wrap_cases b (x - y)) as [|(z & E & H)]; eauto. Qed.

Lemma mav_step_safe v c : size <= isize_max -> mav_ok v -> call_usize c ->
  mav_step b e size bits c v = Panic \/
  exists o w, mav_step b e size bits c v = Ret (o, w) /\ mav_ok w /\ ma_data w = ma_data v /\
    view_inside (ma_index v) (ma_index w) /\
    (forall d, o = Some d -> slice_ok d /\ view_inside (ma_data v) d).
Proof.
  intros Hs Hv Hc. pose proof Hv as (Hv1 & Hv2).
  assert (Stay : exists o w, Ret (None, v) = Ret (o, w) /\ mav_ok w /\ ma_data w = ma_data v /\
    view_inside (ma_index v) (ma_index w) /\ (forall d : slice, o = Some d -> slice_ok d /\ view_inside (ma_data v) d)).
  { exists None, v. split; auto. split; auto. split; auto. split; [apply view_inside_refl; auto|]. discriminate. }
  destruct c as [i|lo hi| |]; simpl.
  - destruct (mav_at_safe v i Hs Hv Hc) as [->|(d & -> & Od & Vd)]; auto. right. simpl. exists (Some d), v.
    split; auto. split; auto. split; auto. split; [apply view_inside_refl; auto|]. intros ? H; injection H as <-; auto.
  - destruct (mav_slice_safe v lo hi Hv) as [->|(w & -> & Ow & Dw & Vw)]; auto. right. simpl. exists None, w.
    split; auto. split; auto. split; auto. split; auto. discriminate.
  - unfold mav_next, mav_is_empty, mav_len. destruct (usub_safe (av_len (index_struct size bits) (ma_index v)) 1) as [->|(n & -> & Hn)]; auto.
    simpl obind. destruct (n =? 0); simpl negb; cbn iota; [auto|].
    destruct (mav_at_safe v 0 Hs Hv ltac:(unfold is_usize, usize_limit; lia)) as [->|(d & -> & Od & Vd)]; auto. simpl obind.
    destruct (mav_slice_safe v (Included 1) Unbounded Hv) as [->|(w & -> & Ow & Dw & Vw)]; auto. right. simpl. exists (Some d), w.
    split; auto. split; auto. split; auto. split; auto. intros ? H; injection H as <-; auto.
  - unfold mav_next_back, mav_is_empty, mav_len. destruct (usub_safe (av_len (index_struct size bits) (ma_index v)) 1) as [->|(n & -> & Hn)]; auto.
    simpl obind. destruct (n =? 0); simpl negb; cbn iota; [auto|].
    destruct (usub_safe n 1) as [->|(k & -> & Hk)]; auto. simpl obind.
    destruct (mav_at_safe v k Hs Hv Hk) as [->|(d & -> & Od & Vd)]; auto. simpl obind.
    destruct (mav_slice_safe v Unbounded (Excluded k) Hv) as [->|(w & -> & Ow & Dw & Vw)]; auto. right. simpl. exists (Some d), w.
    split; auto. split; auto. split; auto. split; auto. intros ? H; injection H as <-; auto.
Qed.

Lemma mav_calls_safe calls : size <= isize_max -> Forall call_usize calls -> forall v, mav_ok v ->
  mav_calls b e size bits calls v = Panic \/
  exists ds w, mav_calls b e size bits calls v = Ret (ds, w) /\ mav_ok w /\ ma_data w = ma_data v /\
    view_inside (ma_index v) (ma_index w) /\ Forall (fun d => slice_ok d /\ view_inside (ma_data v) d) ds.
Proof.
  intros Hs Hc. induction Hc as [|c calls Hc _ IH]; intros v Hv; cbn [mav_calls].
  - right. exists [], v. destruct Hv as (H1 & H2). split; auto. split; [split; auto|]. split; auto. split; [apply view_inside_refl; auto|constructor].
  - destruct (mav_step_safe v c Hs Hv Hc) as [->|(o & w & -> & Ow & Dw & Vw & Hd)]; auto. simpl obind.
    destruct (IH w Ow) as [->|(ds & w' & -> & Ow' & Dw' & Vw' & F)]; auto. right. simpl. eexists _, w'. split; [reflexivity|].
    split; auto. split; [congruence|]. split; [eapply view_inside_trans; eauto; destruct Hv; auto|].
    rewrite Dw in F. destruct o as [d|]; auto.
Qed.

(** * Ranges out of bounds *)
Lemma mav_slice_out_debug v lo hi : b = Debug -> mav_ok v -> bound_usize lo -> bound_usize hi ->
  let n := av_len is (ma_index v) - 1 in
  ~ (range_lo lo <= range_hi hi n <= n) -> range_lo lo <> range_hi hi n + 1 \/ n < range_hi hi n ->
  mav_slice b size bits v lo hi = Panic.
Proof.
  intros -> (Hv & _) Hlo Hhi n Hr Hx. unfold mav_slice.
  assert (H0 : 0 <= range_lo lo) by (destruct lo; simpl in *; unfold is_usize in *; lia).
  destruct (match lo with Included i => Ret i | Excluded i => uadd Debug i 1 | Unbounded => Ret 0 end) as [x| | |] eqn:Ex.
  2: reflexivity. 2,3: destruct lo; try discriminate; unfold uadd, wrap_or_panic in Ex; destruct (_ && _); discriminate.
  assert (x = range_lo lo /\ is_usize x) as (-> & Hx1).
  { destruct lo as [i|i|]; simpl in *.
    - injection Ex as ->. auto.
    - unfold uadd, wrap_or_panic in Ex. destruct (_ && _) eqn:E; [|discriminate]. injection Ex as <-. unfold is_usize. lia.
    - injection Ex as <-. unfold is_usize, usize_limit. lia. }
  simpl obind.
  destruct (match hi with Included i => uadd Debug i 2 | Excluded i => uadd Debug i 1 | Unbounded => Ret (av_len (index_struct size bits) (ma_index v)) end) as [y| | |] eqn:Ey.
  2: reflexivity. 2,3: destruct hi; try discriminate; unfold uadd, wrap_or_panic in Ey; destruct (_ && _); discriminate.
  assert (Hal : 0 <= av_len is (ma_index v) <= isize_max).
  { rewrite <- offsets_length by auto. pose proof (offsets_small v Hv). lia. }
  assert (y = range_hi hi n + 1 /\ is_usize y) as (-> & Hy1).
  { destruct hi as [i|i|]; simpl in *.
    - unfold uadd, wrap_or_panic in Ey. destruct (_ && _) eqn:E; [|discriminate]. injection Ey as <-. unfold is_usize. lia.
    - unfold uadd, wrap_or_panic in Ey. destruct (_ && _) eqn:E; [|discriminate]. injection Ey as <-. unfold is_usize. lia.
    - injection Ey as <-. unfold n, is_usize, usize_limit, isize_max in *. unfold is in *. lia. }
  simpl obind. pose proof index_pos. rewrite av_slice_panics_debug; auto. simpl. fold is. lia.
Qed.

Lemma mav_slice_out_nowrap v lo hi : mav_ok v -> bound_usize lo -> bound_usize hi ->
  let n := av_len is (ma_index v) - 1 in
  ~ (range_lo lo <= range_hi hi n <= n) -> range_lo lo <> range_hi hi n + 1 \/ n < range_hi hi n ->
  range_lo lo * size < usize_limit -> (range_hi hi n + 1) * size < usize_limit ->
  mav_slice b size bits v lo hi = Panic.
Proof.
  intros (Hv & _) Hlo Hhi n Hr Hx Hw1 Hw2. unfold mav_slice. pose proof index_pos as Hp.
  assert (H0 : 0 <= range_lo lo) by (destruct lo; simpl in *; unfold is_usize in *; lia).
  assert (Hal : 0 <= av_len is (ma_index v) <= isize_max).
  { rewrite <- offsets_length by auto. pose proof (offsets_small v Hv). lia. }
  assert (Hh0 : 0 <= range_hi hi n + 1) by (destruct hi; simpl in *; unfold is_usize, n in *; lia).
  assert (range_lo lo < usize_limit) by nia. assert (range_hi hi n + 1 < usize_limit) by nia.
  replace (match lo with Included i => Ret i | Excluded i => uadd b i 1 | Unbounded => Ret 0 end) with (Ret (range_lo lo)).
  2:{ destruct lo; simpl in *; auto. unfold uadd. rewrite wrap_ok by lia. auto. }
  simpl obind.
  replace (match hi with Included i => uadd b i 2 | Excluded i => uadd b i 1 | Unbounded => Ret (av_len (index_struct size bits) (ma_index v)) end)
    with (Ret (range_hi hi n + 1)).
  2:{ destruct hi; simpl in *; unfold uadd, is_usize in *; rewrite ?wrap_ok by lia; f_equal; try lia. unfold n, is. lia. }
  simpl obind. rewrite av_slice_panics_nowrap; auto; simpl; unfold is_usize; fold is; try lia.
Qed.

(** The range from one behind its end: an index without entries. *)
Lemma mav_slice_hole v i : mav_ok v -> 0 <= i -> i < av_len is (ma_index v) ->
  exists w, mav_slice b size bits v (Included (i + 1)) (Excluded i) = Ret w /\ offsets size bits w = [] /\
    mav_len b size bits w = usub b 0 1.
Proof.
  intros (Hv & Hd) Hi Hl. pose proof (offsets_length v Hv) as Ho. pose proof (offsets_small v Hv) as Hs. unfold isize_max in Hs.
  unfold mav_slice, uadd. simpl obind. rewrite wrap_ok by (unfold usize_limit; lia). simpl obind. fold is.
  destruct (av_slice_spec b is (ma_index v) (Included (i + 1)) (Excluded (i + 1)) Hwf Hv) as (w & E & Ow & Lw & Rw).
  1,2: simpl; unfold is_usize, usize_limit; lia. { simpl. lia. }
  simpl in Lw, Rw. rewrite E. simpl obind. eexists. split; [reflexivity|].
  replace (i + 1 - (i + 1)) with 0 in * by lia. split.
  - unfold offsets. cbn [ma_index]. fold is. rewrite Rw. reflexivity.
  - unfold mav_len. cbn [ma_index]. fold is. rewrite Lw. auto.
Qed.
End Env.

(** Bytes produced by the setters on zeros. *)
Lemma encodes_run s sets m : wf_struct s -> sets_ok s sets -> run_sets Debug LE s sets (zeros (s_size s)) = Ret m ->
  encodes s m (apply_sets sets (zero_record s)).
Proof.
  intros Hwf Hs E. destruct (run_sets_good Debug LE s sets Hwf Hs (zeros (s_size s)) [] (zero_record s)) as (m' & E' & G & _).
  - constructor.
  - apply good_zero; auto.
  - rewrite !app_nil_r in E'. rewrite E in E'. injection E' as ->. auto.
Qed.

Lemma item_encodes_run ts t sets m : wf_vdesc ts -> (t < length ts)%nat -> sets_ok (v_struct ts t) sets ->
  run_sets Debug LE (v_struct ts t) sets (zeros (s_size (v_struct ts t))) = Ret m ->
  item_encodes ts (v_tag ts t :: m) (t, apply_sets sets (zero_record (v_struct ts t))).
Proof.
  intros Hts Ht Hs E. destruct (wf_vdesc_nth ts t Hts Ht) as (_ & Hwf). split.
  - split; auto. apply record_ok_sets; auto. apply record_ok_zero; auto.
  - exists m. split; auto. apply encodes_run; auto.
Qed.
