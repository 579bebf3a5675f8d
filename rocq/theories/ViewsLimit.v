(** Vectors larger than the address space: exactly when with_len, grow and
    reserve of Views.v panic, and what the release build does when the size
    wraps around. *)
From Verif Require Import Base BaseFacts Codec CodecSpec CodecFacts Structs StructsSpec
  StructsFacts Views ViewsSpec ViewsFacts ViewsExact.

Lemma wf_size s : wf_struct s -> 0 < s_size s.
Proof. intros (H & _). exact H. Qed.

Lemma resize_nil q : 0 <= q ->
  vec_resize [] q = if q <=? isize_max then Ret (zeros q) else Panic.
Proof. intros H. unfold vec_resize. rewrite firstn_nil, len_nil, Z.sub_0_r. reflexivity. Qed.

Lemma wrap_debug x : 0 <= x ->
  wrap_or_panic Debug x = if x <? usize_limit then Ret x else Panic.
Proof.
  intros H. unfold wrap_or_panic. destruct (Z.leb_spec 0 x); [|lia]. simpl.
  destruct (x <? usize_limit); reflexivity.
Qed.

Lemma wrap_rel x : wrap_or_panic Release x = Ret (x mod usize_limit).
Proof.
  unfold wrap_or_panic. destruct (_ && _) eqn:E; auto.
  rewrite Z.mod_small by lia. reflexivity.
Qed.

Lemma with_len_debug s n : wf_struct s -> 0 <= n ->
  vec_with_len Debug s n =
  if n * s_size s + 8 <=? isize_max then Ret (zeros (n * s_size s + 8)) else Panic.
Proof.
  intros Hwf Hn. pose proof (wf_size s Hwf). assert (0 <= n * s_size s) by nia.
  unfold vec_with_len, calc_size, umul, uadd, PADDING_SIZE. rewrite wrap_debug by lia.
  unfold usize_limit, isize_max in *.
  destruct (Z.ltb_spec (n * s_size s) (2 ^ 64)); simpl obind.
  - fold usize_limit. rewrite wrap_debug by lia. unfold usize_limit.
    destruct (Z.ltb_spec (n * s_size s + 8) (2 ^ 64)); simpl obind.
    + rewrite resize_nil by lia. reflexivity.
    + destruct (Z.leb_spec (n * s_size s + 8) (2 ^ 63 - 1)); [lia|reflexivity].
  - destruct (Z.leb_spec (n * s_size s + 8) (2 ^ 63 - 1)); [lia|reflexivity].
Qed.

Lemma with_len_release s n : wf_struct s -> 0 <= n ->
  vec_with_len Release s n =
  let q := (n * s_size s + 8) mod 2 ^ 64 in
  if q <=? isize_max then Ret (zeros q) else Panic.
Proof.
  intros Hwf Hn. unfold vec_with_len, calc_size, umul, uadd, PADDING_SIZE.
  rewrite wrap_rel. simpl obind. rewrite wrap_rel. simpl obind. unfold usize_limit.
  rewrite Zplus_mod_idemp_l, resize_nil; [reflexivity|]. apply Z.mod_pos_bound. lia.
Qed.

Lemma grow_exact b s data l : wf_struct s -> s_size s <= isize_max -> vec_inv s data l ->
  if len data + s_size s <=? isize_max
  then exists data', vec_grow b s data = Ret (data', Z.of_nat (length l) * s_size s) /\
         vec_inv s data' (l ++ [zero_record s])
  else vec_grow b s data = Panic.
Proof.
  intros Hwf Hs Hi. pose proof (wf_size s Hwf).
  assert (HL : len data = Z.of_nat (length l) * s_size s + 8 /\ len data <= isize_max).
  { destruct Hi as (els & -> & Hb & Hl & Hr & Hm). rewrite len_app, len_zeros, Hl in * by lia. lia. }
  destruct HL as (HL & HM).
  destruct (Z.leb_spec (len data + s_size s) isize_max).
  - apply vec_grow_ok; auto. lia.
  - unfold vec_grow, uadd. pose proof (len_nonneg data). unfold isize_max in *.
    rewrite wrap_ok by (unfold usize_limit; lia). simpl obind. unfold vec_resize, isize_max.
    destruct (Z.leb_spec (len data + s_size s) (2 ^ 63 - 1)); [lia|reflexivity].
Qed.

Lemma reserve_exact b s data l a : wf_struct s -> vec_inv s data l -> 0 <= a ->
  vec_reserve b s data a =
  let add := match b with Debug => a * s_size s + 8 | Release => (a * s_size s + 8) mod 2 ^ 64 end in
  if len data + add <=? isize_max then Ret data else Panic.
Proof.
  intros Hwf Hi Ha. pose proof (wf_size s Hwf).
  assert (HL : len data = Z.of_nat (length l) * s_size s + 8 /\ len data <= isize_max).
  { destruct Hi as (els & -> & Hb & Hl & Hr & Hm). rewrite len_app, len_zeros, Hl in * by lia. lia. }
  destruct HL as (HL & HM). unfold vec_reserve. rewrite (vec_len_ok b s data l) by auto.
  simpl obind. set (n := Z.of_nat (length l)) in *. assert (0 <= n) by (unfold n; lia).
  assert (0 <= n * s_size s) by nia. assert (0 <= a * s_size s) by nia.
  assert (Sz : vec_size_in_bytes b data = Ret (n * s_size s)).
  { unfold vec_size_in_bytes, usub, PADDING_SIZE. rewrite HL. unfold isize_max in HM.
    rewrite wrap_ok by (unfold usize_limit; lia). f_equal. lia. }
  rewrite Sz. unfold calc_size, umul, uadd, usub, PADDING_SIZE. unfold isize_max in *. destruct b.
  - cbv zeta. rewrite wrap_debug by lia.
    destruct (Z.ltb_spec (n + a) usize_limit) as [B1|B1]; simpl obind;
      [|destruct (Z.leb_spec (len data + (a * s_size s + 8)) (2 ^ 63 - 1)); [unfold usize_limit in B1; nia|reflexivity]].
    rewrite wrap_debug by nia.
    destruct (Z.ltb_spec ((n + a) * s_size s) usize_limit) as [B2|B2]; simpl obind;
      [|destruct (Z.leb_spec (len data + (a * s_size s + 8)) (2 ^ 63 - 1)); [unfold usize_limit in B2; nia|reflexivity]].
    rewrite wrap_debug by nia.
    destruct (Z.ltb_spec ((n + a) * s_size s + 8) usize_limit) as [B3|B3]; simpl obind;
      [|destruct (Z.leb_spec (len data + (a * s_size s + 8)) (2 ^ 63 - 1)); [unfold usize_limit in B3; nia|reflexivity]].
    rewrite wrap_ok by nia. simpl obind.
    replace ((n + a) * s_size s + 8 - n * s_size s) with (a * s_size s + 8) by ring. reflexivity.
  - rewrite !wrap_rel. simpl obind. rewrite !wrap_rel. simpl obind. rewrite !wrap_rel. simpl obind.
    rewrite !wrap_rel. simpl obind. unfold usize_limit.
    rewrite Zmult_mod_idemp_l, Zplus_mod_idemp_l, Zminus_mod_idemp_l.
    replace ((n + a) * s_size s + 8 - n * s_size s) with (a * s_size s + 8) by ring. reflexivity.
Qed.

(** * Sizes *)
Lemma vector_sizes b e s n ops data : wf_struct s -> 0 <= n -> n * s_size s + 8 <= isize_max ->
  vec_ops_ok s ops n -> obind (vec_with_len b s n) (vec_run b e s ops) = Ret data ->
  let l := fold_left (fun l o => list_step s o l) ops (repeat (zero_record s) (Z.to_nat n)) in
  vec_is_empty b s data = Ret (match l with [] => true | _ => false end) /\
  vec_size_in_bytes b data = Ret (Z.of_nat (length l) * s_size s) /\
  exists v, vec_as_view b data = Ret v /\ sl_len v = Z.of_nat (length l) * s_size s /\
    av_is_empty s v = match l with [] => true | _ => false end.
Proof.
  intros Hwf Hn Hm Hops E l. pose proof (wf_size s Hwf).
  destruct (vec_with_len_ok b s n Hwf Hn Hm) as (d0 & E0 & I0). rewrite E0 in E. cbn [obind] in E.
  destruct (vec_run_refines b e s ops d0 _ Hwf I0) as (d & E1 & I1).
  { rewrite repeat_length, Z2Nat.id by lia. exact Hops. }
  rewrite E1 in E. injection E as ->. fold l in I1.
  assert (He : (Z.of_nat (length l) =? 0) = match l with [] => true | _ => false end) by (destruct l; reflexivity).
  assert (Hs : vec_size_in_bytes b data = Ret (Z.of_nat (length l) * s_size s)).
  { destruct I1 as (els & -> & Hb & Hl & Hr & HM). rewrite vec_size_ok by auto. rewrite Hl. reflexivity. }
  split; [|split; [exact Hs|]].
  - unfold vec_is_empty. rewrite (vec_len_ok b s data l) by auto. cbn [obind]. rewrite He. reflexivity.
  - destruct I1 as (els & -> & Hb & Hl & Hr & HM). unfold vec_as_view. rewrite Hs. cbn [obind].
    assert (0 <= Z.of_nat (length l) * s_size s) by nia.
    rewrite slice_range_ok; [|lia|unfold whole; cbn [sl_len]; rewrite len_app, len_zeros; lia].
    eexists. split; [reflexivity|]. cbn [sl_len]. split; [lia|].
    unfold av_is_empty, av_len. cbn [sl_len]. rewrite Z.sub_0_r, Z.div_mul by lia. exact He.
Qed.
