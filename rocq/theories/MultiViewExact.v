(** The exact result of slicing multi array views in release builds. *)
From Verif Require Import Base BaseFacts Codec CodecSpec CodecFacts Structs StructsSpec StructsFacts.
From Verif Require Import Views ViewsSpec ViewsFacts ViewsExact ViewsLimit MultiViews MultiSpec.
Local Open Scope list_scope.
Local Open Scope Z_scope.

(** In release builds all products and sums wrap around. *)
Lemma mav_slice_release size bits : wf_struct (index_struct size bits) -> forall v lo hi,
  mav_ok v -> bound_usize lo -> bound_usize hi ->
  let p := (range_lo lo * size) mod 2 ^ 64 in
  let q := match hi with
           | Unbounded => sl_len (ma_index v) / size * size
           | _ => ((range_hi hi 0 + 1) * size) mod 2 ^ 64
           end in
  mav_slice Release size bits v lo hi =
    if (p <=? q) && (q <=? sl_len (ma_index v))
    then Ret (mkMav (mkSlice (skipn (Z.to_nat p) (sl_mem (ma_index v))) (q - p)) (ma_data v)) else Panic.
Proof.
  intros Hwf v lo hi (Hv & _) Hlo Hhi p q. pose proof Hwf as (Hs & _). change (s_size (index_struct size bits)) with size in Hs.
  assert (G : forall i j, is_usize i -> is_usize j -> (i * size) mod 2 ^ 64 = p -> (j * size) mod 2 ^ 64 = q ->
    obind (av_slice Release (index_struct size bits) (ma_index v) (Included i) (Excluded j))
      (fun x => Ret (mkMav x (ma_data v))) =
    if (p <=? q) && (q <=? sl_len (ma_index v))
    then Ret (mkMav (mkSlice (skipn (Z.to_nat p) (sl_mem (ma_index v))) (q - p)) (ma_data v)) else Panic).
  { intros i j Hi Hj E1 E2. rewrite av_slice_release by auto. cbn [range_lo range_hi].
    change (s_size (index_struct size bits)) with size. rewrite E1, E2.
    destruct (_ && _); reflexivity. }
  assert (W : forall x, is_usize (x mod usize_limit)) by (intros x; apply wrap_range).
  destruct Hv as (Hl & Hmax & Hb). pose proof (len_nonneg (sl_mem (ma_index v))).
  unfold mav_slice, uadd. subst p q.
  assert (A : 0 <= sl_len (ma_index v) / size * size <= sl_len (ma_index v)).
  { split; [pose proof (Z.div_pos (sl_len (ma_index v)) size ltac:(lia) ltac:(lia)); nia|].
    rewrite Z.mul_comm. apply Z.mul_div_le. lia. }
  assert (U : is_usize (av_len (index_struct size bits) (ma_index v))).
  { unfold av_len, is_usize. change (s_size (index_struct size bits)) with size. unfold isize_max in Hmax. 
    assert (0 <= sl_len (ma_index v) / size) by (apply Z.div_pos; lia). split; [lia|].
    assert (sl_len (ma_index v) / size <= sl_len (ma_index v)) by (apply Z.div_le_upper_bound; nia). unfold usize_limit; lia. }
  assert (Ue : (av_len (index_struct size bits) (ma_index v) * size) mod 2 ^ 64 = sl_len (ma_index v) / size * size).
  { unfold av_len. change (s_size (index_struct size bits)) with size. apply Z.mod_small. unfold isize_max in Hmax. lia. }
  destruct lo as [i|i|], hi as [j|j|]; rewrite ?wrap_rel; cbn [obind];
    try (apply G; auto; [unfold is_usize, usize_limit; lia|]);
    try (apply G; auto); cbn [range_lo range_hi]; unfold usize_limit;
    rewrite ?Zmult_mod_idemp_l; try reflexivity;
    try (f_equal; ring).
  all: try (unfold is_usize, usize_limit; lia).
Qed.
