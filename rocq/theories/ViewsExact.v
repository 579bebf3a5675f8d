(** Exact results of indexing out of range: views in release builds, vectors. *)
From Verif Require Import Base BaseFacts Codec CodecSpec CodecFacts Structs StructsSpec
  StructsFacts Views ViewsSpec ViewsFacts.

Lemma wrap_release x : 0 <= x -> wrap_or_panic Release x = Ret (x mod usize_limit).
Proof.
  intros H. unfold wrap_or_panic. destruct (_ && _) eqn:E; auto.
  rewrite Z.mod_small by lia. reflexivity.
Qed.

Lemma wrap_range x : 0 <= x mod usize_limit < usize_limit.
Proof. apply Z.mod_pos_bound. reflexivity. Qed.

Theorem av_at_release s v i : 0 < s_size s <= isize_max -> slice_ok v -> is_usize i ->
  let p := (i * s_size s) mod 2 ^ 64 in
  av_at Release s v i =
    if p + s_size s <=? sl_len v then Ret (skipn (Z.to_nat p) (sl_mem v)) else Panic.
Proof.
  intros Hs (Hl & Hmax & Hb) Hi p. unfold is_usize in Hi.
  unfold av_at, data_index, umul, uadd.
  assert (0 <= i * s_size s) by nia.
  rewrite wrap_release by lia. simpl obind. change ((i * s_size s) mod usize_limit) with p.
  assert (Hp : 0 <= p < usize_limit) by apply wrap_range.
  rewrite wrap_release by lia. simpl obind.
  destruct (Z.ltb_spec (p + s_size s) usize_limit) as [H2|H2].
  - rewrite Z.mod_small by lia. destruct (_ <=? _) eqn:E; auto.
    unfold slice_from. rewrite slice_range_ok by lia. reflexivity.
  - replace (p + s_size s <=? sl_len v) with false by (unfold isize_max, usize_limit in *; lia).
    destruct (_ <=? _); auto. unfold slice_from.
    rewrite slice_range_panic; auto. unfold isize_max, usize_limit in *. lia.
Qed.

Theorem av_slice_release s v lo hi : 0 < s_size s -> slice_ok v ->
  bound_usize lo -> bound_usize hi ->
  let p := (range_lo lo * s_size s) mod 2 ^ 64 in
  let q := match hi with Unbounded => sl_len v | _ => (range_hi hi 0 * s_size s) mod 2 ^ 64 end in
  av_slice Release s v lo hi =
    if (p <=? q) && (q <=? sl_len v)
    then Ret (mkSlice (skipn (Z.to_nat p) (sl_mem v)) (q - p)) else Panic.
Proof.
  intros Hs (Hl & Hmax & Hb) Hlo Hhi p q. unfold av_slice, data_index, uadd, umul.
  assert (Hplus : forall i, is_usize i ->
     obind (wrap_or_panic Release (i + 1)) (fun k => wrap_or_panic Release (k * s_size s))
     = Ret (((i + 1) * s_size s) mod 2 ^ 64)).
  { intros i [H0 H1]. rewrite wrap_release by lia. simpl obind.
    pose proof (wrap_range (i + 1)). rewrite wrap_release by nia.
    change (2 ^ 64) with usize_limit. rewrite Zmult_mod_idemp_l. reflexivity. }
  assert (Hid : forall i, is_usize i ->
     wrap_or_panic Release (i * s_size s) = Ret ((i * s_size s) mod 2 ^ 64)).
  { intros i [H0 H1]. rewrite wrap_release by nia. reflexivity. }
  assert (El : match lo with
     | Included i => wrap_or_panic Release (i * s_size s)
     | Excluded i => obind (wrap_or_panic Release (i + 1)) (fun k => wrap_or_panic Release (k * s_size s))
     | Unbounded => Ret 0 end = Ret p).
  { unfold p. destruct lo; cbn [range_lo bound_usize] in *; auto. }
  assert (Eh : match hi with
     | Included i => obind (wrap_or_panic Release (i + 1)) (fun k => wrap_or_panic Release (k * s_size s))
     | Excluded i => wrap_or_panic Release (i * s_size s)
     | Unbounded => Ret (sl_len v) end = Ret q).
  { unfold q. destruct hi; cbn [range_hi bound_usize] in *; auto. }
  rewrite El. simpl obind. rewrite Eh. simpl obind. unfold slice_range.
  assert (0 <= p) by (apply Z.mod_pos_bound; reflexivity).
  now replace (0 <=? p) with true by lia.
Qed.

(** Vectors: at and at_mut only check that the element starts inside the
    vector's bytes, which include the padding. *)
Definition vec_offset (b : build) (x : Z) : outcome Z :=
  if x <? 2 ^ 64 then Ret x else match b with Debug => Panic | Release => Ret (x mod 2 ^ 64) end.

Theorem vec_at_exact b s data i : 0 < s_size s -> len data <= isize_max -> 0 <= i ->
  (forall p, vec_offset b (i * s_size s) = Ret p ->
     vec_at b s data i = (if p <=? len data then Ret (skipn (Z.to_nat p) data) else Panic) /\
     vec_at_mut b s data i = (if p <=? len data then Ret p else Panic)) /\
  (vec_offset b (i * s_size s) = Panic ->
     vec_at b s data i = Panic /\ vec_at_mut b s data i = Panic).
Proof.
  intros Hs Hl Hi. unfold vec_at, vec_at_mut, umul, wrap_or_panic, vec_offset.
  change usize_limit with (2 ^ 64).
  assert (0 <= i * s_size s) by nia. replace (0 <=? i * s_size s) with true by lia.
  assert (K : forall p, 0 <= p ->
    obind (slice_from (whole data) p) (fun d => Ret (sl_mem d))
      = (if p <=? len data then Ret (skipn (Z.to_nat p) data) else Panic) /\
    obind (slice_from (whole data) p) (fun _ => Ret p)
      = (if p <=? len data then Ret p else Panic)).
  { intros p Hp. unfold slice_from, slice_range, whole. cbn [sl_len sl_mem].
    replace (0 <=? p) with true by lia. rewrite Z.leb_refl, andb_true_r. cbn [andb].
    destruct (p <=? len data); auto. }
  destruct (i * s_size s <? 2 ^ 64); cbn [andb]; [|destruct b]; split; intros; try discriminate; auto.
  - assert (i * s_size s = p) as <- by congruence. simpl obind. apply K. lia.
  - assert ((i * s_size s) mod 2 ^ 64 = p) as <- by congruence. simpl obind. apply K.
    apply Z.mod_pos_bound. reflexivity.
Qed.

Lemma skipn_twice {A} (l : list A) : forall a c, skipn a (skipn c l) = skipn (c + a) l.
Proof.
  induction l as [|x l IH]; intros a [|c]; simpl; auto. now rewrite skipn_nil.
Qed.

(** Using a handle at offset [p]. *)
Lemma set_field_short b e s f v m : len m < s_size s -> set_field b e s f v m = UB.
Proof. intros H. unfold set_field. now replace (_ <=? _) with false by lia. Qed.

Theorem vec_handle_exact b e s data p o ops : wf_struct s -> bytes_ok data -> 0 <= p <= len data ->
  sets_ok s (o :: ops) ->
  (p + s_size s <= len data ->
     exists d, through_handle b e s (o :: ops) data p = Ret d /\ len d = len data /\
       firstn (Z.to_nat p) d = firstn (Z.to_nat p) data /\
       skipn (Z.to_nat (p + s_size s)) d = skipn (Z.to_nat (p + s_size s)) data) /\
  (len data < p + s_size s -> through_handle b e s (o :: ops) data p = UB).
Proof.
  intros Hw Hb Hp Ho. pose proof Hw as (Hs & _).
  assert (Hm : len (skipn (Z.to_nat p) data) = len data - p) by (unfold len; rewrite skipn_length; unfold len in *; lia).
  split; intros H.
  - destruct (run_sets_decode b e s (o :: ops) (skipn (Z.to_nat p) data))
      as (m & R & Bm & Lm & _ & T & _); auto.
    { now apply bytes_ok_skipn. } { lia. }
    unfold through_handle. rewrite R. simpl obind.
    assert (Lf : len (firstn (Z.to_nat p) data) = p) by (apply len_firstn; lia).
    assert (Ln : length (firstn (Z.to_nat p) data) = Z.to_nat p) by (unfold len in *; lia).
    eexists. split; [reflexivity|]. split; [|split].
    + rewrite len_app. lia.
    + rewrite firstn_app, Ln, Nat.sub_diag. simpl. rewrite app_nil_r. apply firstn_all2. lia.
    + rewrite skipn_app, Ln, skipn_all2 by lia. simpl.
      replace (Z.to_nat (p + s_size s) - Z.to_nat p)%nat with (Z.to_nat (s_size s)) by lia.
      rewrite T, skipn_twice. f_equal. lia.
  - unfold through_handle. destruct o as [i v]. cbn [run_sets].
    rewrite set_field_short by lia. reflexivity.
Qed.
