(** Properties C13 - C21: Vector, ArrayView and its iterator.
    Vocabulary: [records] (the list of records in a byte string), [list_step]
    (vector operations on a list of records), [deque_run] (popping from both
    ends of a list), [shows] (all getters of a handle give that record). *)
From Verif Require Import Base BaseFacts Codec CodecSpec Structs StructsSpec StructsFacts.
From Verif Require Import Views ViewsSpec ViewsFacts ViewsExact ViewsLimit.

(** C13 *)
Theorem C13_vector_is_a_list b e s n ops :
  wf_struct s -> 0 <= n -> n * s_size s + 8 <= isize_max -> vec_ops_ok s ops n ->
  let l := fold_left (fun l o => list_step s o l) ops (repeat (zero_record s) (Z.to_nat n)) in
  exists data v,
    obind (vec_with_len b s n) (vec_run b e s ops) = Ret data /\
    vec_len b s data = Ret (Z.of_nat (length l)) /\
    vec_as_view b data = Ret v /\ slice_ok v /\ av_len s v = Z.of_nat (length l) /\
    records s (sl_bytes v) = l /\ data = sl_bytes v ++ zeros 8 /\
    forall i, 0 <= i < Z.of_nat (length l) ->
      (exists m, vec_at b s data i = Ret m /\ shows b e s m (nth (Z.to_nat i) l [])) /\
      (exists m, av_at b s v i = Ret m /\ shows b e s m (nth (Z.to_nat i) l [])).
Proof. exact (vector_refines b e s n ops). Qed.
Print Assumptions C13_vector_is_a_list.

(** Sizes and emptiness of a vector after any operations, and of its view. *)
Theorem C13_sizes b e s n ops data :
  wf_struct s -> 0 <= n -> n * s_size s + 8 <= isize_max -> vec_ops_ok s ops n ->
  obind (vec_with_len b s n) (vec_run b e s ops) = Ret data ->
  let l := fold_left (fun l o => list_step s o l) ops (repeat (zero_record s) (Z.to_nat n)) in
  vec_is_empty b s data = Ret (match l with [] => true | _ => false end) /\
  vec_size_in_bytes b data = Ret (Z.of_nat (length l) * s_size s) /\
  exists v, vec_as_view b data = Ret v /\ sl_len v = Z.of_nat (length l) * s_size s /\
    av_is_empty s v = match l with [] => true | _ => false end.
Proof. exact (vector_sizes b e s n ops data). Qed.
Print Assumptions C13_sizes.

(** A three-byte struct with unaligned fields. *)
Definition ex3 := mkStruct 3 [mkField U16 0 11; mkField I16 11 13].
Lemma ex3_wf : wf_struct ex3.
Proof. apply wf_struct_dec. reflexivity. Qed.

Example C13_example :
  let ops := [VGrow [(0%nat, 7)]; VReserve 5; VSet 0 [(1%nat, -3)]; VGrow []; VSet 2 [(0%nat, 2047); (1%nat, 4095)]] in
  vec_ops_ok ex3 ops 1 /\
  fold_left (fun l o => list_step ex3 o l) ops [zero_record ex3] = [[0; -3]; [7; 0]; [2047; 4095]] /\
  obind (vec_with_len Debug ex3 1) (vec_run Debug LE ex3 ops) =
    Ret [0; 232; 255; 7; 0; 0; 255; 255; 127; 0; 0; 0; 0; 0; 0; 0; 0].
Proof.
  split; [|split; vm_compute; reflexivity].
  unfold ex3, vec_ops_ok, sets_ok, isize_max. simpl.
  repeat split; try lia; repeat constructor; simpl; lia.
Qed.

(** C14 *)
Theorem C14_at_exact b e s v i :
  wf_struct s -> slice_ok v -> 0 <= i < av_len s v ->
  exists m, av_at b s v i = Ret m /\ bytes_ok m /\ s_size s <= len m /\
    firstn (Z.to_nat (s_size s)) m = chunk (s_size s) (sl_bytes v) (Z.to_nat i) /\
    get_all b e s m = Ret (nth (Z.to_nat i) (records s (sl_bytes v)) []).
Proof. exact (av_at_spec b e s v i). Qed.
Print Assumptions C14_at_exact.

Theorem C14_at_panics s v i :
  0 < s_size s -> slice_ok v -> is_usize i -> av_len s v <= i -> av_at Debug s v i = Panic.
Proof. exact (av_at_panics_debug s v i). Qed.
Print Assumptions C14_at_panics.

(** Eleven bytes hold three elements and an incomplete fourth. *)
Definition ex_view := whole [1; 2; 3; 4; 5; 6; 7; 8; 9; 10; 11].
Lemma ex_view_ok : slice_ok ex_view.
Proof.
  apply slice_ok_whole; [|unfold len, isize_max; simpl; lia].
  repeat (constructor; [unfold is_byte; lia|]). constructor.
Qed.
Example C14_example :
  av_len ex3 ex_view = 3 /\ av_at Debug ex3 ex_view 2 = Ret [7; 8; 9; 10; 11] /\
  av_at Debug ex3 ex_view 3 = Panic /\
  av_at Debug ex3 ex_view 6148914691236517205 = Panic.
Proof. repeat split; vm_compute; reflexivity. Qed.

(** C15: in release builds the check can be passed by overflow ... *)
Theorem C15_release_check_refuted :
  forall s v k, s_size s = 4 * k -> 0 < k -> slice_ok v -> 1 <= av_len s v ->
  av_at Release s v (2 ^ 62) = av_at Release s v 0 /\
  (exists m, av_at Release s v (2 ^ 62) = Ret m) /\ av_len s v < 2 ^ 62.
Proof. exact av_at_release_wraps. Qed.
Print Assumptions C15_release_check_refuted.

(** ... and is exact for all indices that do not overflow. *)
Theorem C15_release_check_partial b s v i :
  0 < s_size s -> slice_ok v -> 0 <= i -> av_len s v <= i ->
  (i + 1) * s_size s < usize_limit -> av_at b s v i = Panic.
Proof. exact (av_at_panics_nowrap b s v i). Qed.
Print Assumptions C15_release_check_partial.

(** Exactly: in a release build [at] tests, and returns, the element at byte
    i * size modulo 2^64. *)
Theorem C15_release_exact s v i : 0 < s_size s <= isize_max -> slice_ok v -> is_usize i ->
  let p := (i * s_size s) mod 2 ^ 64 in
  av_at Release s v i =
    if p + s_size s <=? sl_len v then Ret (skipn (Z.to_nat p) (sl_mem v)) else Panic.
Proof. exact (av_at_release s v i). Qed.
Print Assumptions C15_release_exact.

Example C15_example :
  av_at Release (mkStruct 4 [mkField U32 0 32]) (whole [1; 2; 3; 4]) (2 ^ 62) = Ret [1; 2; 3; 4] /\
  av_at Debug (mkStruct 4 [mkField U32 0 32]) (whole [1; 2; 3; 4]) (2 ^ 62) = Panic /\
  (* an odd size overflows too *)
  av_at Release ex3 ex_view 6148914691236517206 = Ret [3; 4; 5; 6; 7; 8; 9; 10; 11].
Proof. repeat split; vm_compute; reflexivity. Qed.

(** C16 *)
Theorem C16_slice_selects b s v lo hi :
  wf_struct s -> slice_ok v -> bound_usize lo -> bound_usize hi ->
  range_lo lo <= range_hi hi (av_len s v) <= av_len s v ->
  exists w, av_slice b s v lo hi = Ret w /\ slice_ok w /\
    av_len s w = range_hi hi (av_len s v) - range_lo lo /\
    records s (sl_bytes w) =
      sublist (range_lo lo) (range_hi hi (av_len s v) - range_lo lo) (records s (sl_bytes v)).
Proof. exact (av_slice_spec b s v lo hi). Qed.
Print Assumptions C16_slice_selects.

Theorem C16_slice_panics s v lo hi :
  0 < s_size s -> slice_ok v -> bound_usize lo -> bound_usize hi ->
  ~ (range_lo lo <= range_hi hi (av_len s v) <= av_len s v) ->
  av_slice Debug s v lo hi = Panic.
Proof. exact (av_slice_panics_debug s v lo hi). Qed.
Print Assumptions C16_slice_panics.

(** The panic also happens in release builds unless a product overflows. *)
Theorem C16_slice_panics_release b s v lo hi :
  0 < s_size s -> slice_ok v -> bound_usize lo -> bound_usize hi ->
  ~ (range_lo lo <= range_hi hi (av_len s v) <= av_len s v) ->
  range_lo lo * s_size s < usize_limit -> range_hi hi (av_len s v) * s_size s < usize_limit ->
  av_slice b s v lo hi = Panic.
Proof. exact (av_slice_panics_nowrap b s v lo hi). Qed.
Print Assumptions C16_slice_panics_release.

(** And exactly: the bounds are byte positions modulo 2^64. *)
Theorem C16_slice_release_exact s v lo hi : 0 < s_size s -> slice_ok v ->
  bound_usize lo -> bound_usize hi ->
  let p := (range_lo lo * s_size s) mod 2 ^ 64 in
  let q := match hi with Unbounded => sl_len v | _ => (range_hi hi 0 * s_size s) mod 2 ^ 64 end in
  av_slice Release s v lo hi =
    if (p <=? q) && (q <=? sl_len v)
    then Ret (mkSlice (skipn (Z.to_nat p) (sl_mem v)) (q - p)) else Panic.
Proof. exact (av_slice_release s v lo hi). Qed.
Print Assumptions C16_slice_release_exact.

Theorem C16_slices_compose b s v lo1 hi1 lo2 hi2 :
  wf_struct s -> slice_ok v ->
  bound_usize lo1 -> bound_usize hi1 -> bound_usize lo2 -> bound_usize hi2 ->
  let n := av_len s v in
  let a := range_lo lo1 in let z := range_hi hi1 n in
  let c := range_lo lo2 in let d := range_hi hi2 (z - a) in
  a <= z <= n -> c <= d <= z - a ->
  exists w w' u, av_slice b s v lo1 hi1 = Ret w /\ av_slice b s w lo2 hi2 = Ret w' /\
    av_slice b s v (Included (a + c)) (Excluded (a + d)) = Ret u /\
    records s (sl_bytes w') = records s (sl_bytes u).
Proof. exact (av_slice_compose b s v lo1 hi1 lo2 hi2). Qed.
Print Assumptions C16_slices_compose.

Theorem C16_slices_compose_exact b s v a z c d :
  0 < s_size s -> slice_ok v ->
  0 <= a <= z -> z <= av_len s v -> 0 <= c <= d -> d <= z - a ->
  exists w w', av_slice b s v (Included a) (Excluded z) = Ret w /\
    av_slice b s w (Included c) (Excluded d) = Ret w' /\
    av_slice b s v (Included (a + c)) (Excluded (a + d)) = Ret w'.
Proof. exact (av_slice_compose_exact b s v a z c d). Qed.
Print Assumptions C16_slices_compose_exact.

Example C16_example :
  omap sl_bytes (av_slice Debug ex3 ex_view (Included 1) (Included 1)) = Ret [4; 5; 6] /\
  omap sl_bytes (av_slice Debug ex3 ex_view (Excluded 0) Unbounded) = Ret [4; 5; 6; 7; 8; 9; 10; 11] /\
  omap sl_bytes (av_slice Debug ex3 ex_view (Included 3) (Excluded 3)) = Ret [] /\
  av_slice Debug ex3 ex_view (Included 2) (Excluded 1) = Panic /\
  av_slice Debug ex3 ex_view (Included 0) (Included 3) = Panic /\
  av_slice Debug ex3 ex_view (Included 0) (Included (usize_limit - 1)) = Panic /\
  (* in a release build [0..=usize::MAX] is the empty view *)
  omap sl_bytes (av_slice Release ex3 ex_view (Included 0) (Included (usize_limit - 1))) = Ret [].
Proof. repeat split; vm_compute; reflexivity. Qed.

(** C17 *)
Theorem C17_iteration b e s calls v :
  wf_struct s -> slice_ok v ->
  exists outs w, av_iter_run b s calls v = Ret (outs, w) /\ slice_ok w /\
    Forall2 (shows_opt b e s) outs (fst (deque_run calls (records s (sl_bytes v)))) /\
    records s (sl_bytes w) = snd (deque_run calls (records s (sl_bytes v))) /\
    av_iter_len s w = Z.of_nat (length (snd (deque_run calls (records s (sl_bytes v))))).
Proof. exact (av_iter_run_spec b e s calls v). Qed.
Print Assumptions C17_iteration.

Example C17_example :
  deque_run [false; true; false; true; false] [10; 20; 30]
    = ([Some 10; Some 30; Some 20; None; None], []) /\
  omap fst (av_iter_run Debug ex3 [false; true; false; true; false] ex_view)
    = Ret [Some [1; 2; 3; 4; 5; 6; 7; 8; 9; 10; 11]; Some [7; 8; 9; 10; 11];
           Some [4; 5; 6; 7; 8; 9; 10; 11]; None; None].
Proof. split; vm_compute; reflexivity. Qed.

(** C18 for ArrayView: len is exact, size_hint never is. *)
Theorem C18_av_len_partial s v : 0 < s_size s -> slice_ok v ->
  av_iter_len s v = Z.of_nat (length (records s (sl_bytes v))).
Proof. exact (fun Hs Hv => records_nil_iff s v Hv Hs). Qed.
Print Assumptions C18_av_len_partial.

Theorem C18_av_size_hint_refuted : forall s v,
  av_size_hint s v <> (av_iter_len s v, Some (av_iter_len s v)) /\ av_size_hint s v = (0, None).
Proof. split; [discriminate|reflexivity]. Qed.
Print Assumptions C18_av_size_hint_refuted.

(** C19 *)
Theorem C19_views_stay_inside b s calls v0 :
  0 < s_size s <= isize_max -> slice_ok v0 -> Forall call_usize calls ->
  view_calls b s calls v0 = Panic \/
  exists hs w, view_calls b s calls v0 = Ret (hs, w) /\ view_inside v0 w /\
    Forall (handle_inside s v0) hs.
Proof. exact (view_calls_safe b s calls v0). Qed.
Print Assumptions C19_views_stay_inside.

(** Reading the fields of such a handle is safe and sees only its bytes. *)
Theorem C19_handles_are_readable b e s v0 m :
  wf_struct s -> slice_ok v0 -> handle_inside s v0 m ->
  get_all b e s m = Ret (decode s (firstn (Z.to_nat (s_size s)) m)).
Proof. exact (handle_readable b e s v0 m). Qed.
Print Assumptions C19_handles_are_readable.

Example C19_example :
  view_calls Release ex3 [CNext; CSlice (Included 1) Unbounded; CAt 0; CNextBack; CNextBack] ex_view
    = Ret ([[1; 2; 3; 4; 5; 6; 7; 8; 9; 10; 11]; [7; 8; 9; 10; 11]; [7; 8; 9; 10; 11]],
           mkSlice [7; 8; 9; 10; 11] 0) /\
  view_calls Release ex3 [CNext; CAt 7] ex_view = Panic.
Proof. split; vm_compute; reflexivity. Qed.

(** C20: Vector::at and at_mut are safe for existing elements ... *)
Theorem C20_vector_at_partial b e s n ops i :
  wf_struct s -> 0 <= n -> n * s_size s + 8 <= isize_max -> vec_ops_ok s ops n ->
  let l := fold_left (fun l o => list_step s o l) ops (repeat (zero_record s) (Z.to_nat n)) in
  0 <= i < Z.of_nat (length l) ->
  exists data, obind (vec_with_len b s n) (vec_run b e s ops) = Ret data /\
    (exists m, vec_at b s data i = Ret m /\ shows b e s m (nth (Z.to_nat i) l [])) /\
    vec_at_mut b s data i = Ret (i * s_size s) /\ (i + 1) * s_size s + 8 <= len data.
Proof. exact (vec_at_inside b e s n ops i). Qed.
Print Assumptions C20_vector_at_partial.

(** ... but not checked: an index equal to len() reaches into the padding and
    one further leaves the allocation. *)
(** Exactly: [at] and [at_mut] check that the element starts inside the vector
    including its eight bytes of padding ... *)
Theorem C20_vector_at_exact b s data i : 0 < s_size s -> len data <= isize_max -> 0 <= i ->
  (forall p, vec_offset b (i * s_size s) = Ret p ->
     vec_at b s data i = (if p <=? len data then Ret (skipn (Z.to_nat p) data) else Panic) /\
     vec_at_mut b s data i = (if p <=? len data then Ret p else Panic)) /\
  (vec_offset b (i * s_size s) = Panic ->
     vec_at b s data i = Panic /\ vec_at_mut b s data i = Panic).
Proof. exact (vec_at_exact b s data i). Qed.
Print Assumptions C20_vector_at_exact.

(** ... and a setter through the handle changes bytes of that place if the
    element also ends inside, and is undefined if it does not. *)
Theorem C20_vector_handle_exact b e s data p o ops : wf_struct s -> bytes_ok data ->
  0 <= p <= len data -> sets_ok s (o :: ops) ->
  (p + s_size s <= len data ->
     exists d, through_handle b e s (o :: ops) data p = Ret d /\ len d = len data /\
       firstn (Z.to_nat p) d = firstn (Z.to_nat p) data /\
       skipn (Z.to_nat (p + s_size s)) d = skipn (Z.to_nat (p + s_size s)) data) /\
  (len data < p + s_size s -> through_handle b e s (o :: ops) data p = UB).
Proof. exact (vec_handle_exact b e s data p o ops). Qed.
Print Assumptions C20_vector_handle_exact.

Theorem C20_vector_at_refuted :
  exists s data, wf_struct s /\ vec_with_len Debug s 1 = Ret data /\
    vec_len Debug s data = Ret 1 /\
    (exists d p, vec_at_mut Debug s data 1 = Ret p /\
       through_handle Debug LE s [(0%nat, 77)] data p = Ret d /\
       d = zeros 4 ++ [77] ++ zeros 7) /\
    (exists m, vec_at Debug s data 3 = Ret m /\ get_all Debug LE s m = UB) /\
    (exists p, vec_at_mut Debug s data 3 = Ret p /\
       through_handle Debug LE s [(0%nat, 77)] data p = UB).
Proof.
  exists (mkStruct 4 [mkField U32 0 32]), (zeros 12).
  split; [apply wf_struct_dec; reflexivity|]. split; [vm_compute; reflexivity|].
  split; [vm_compute; reflexivity|].
  split; [exists (zeros 4 ++ [77] ++ zeros 7), 4; repeat split; vm_compute; reflexivity|].
  split; [exists []; split; vm_compute; reflexivity|].
  exists 12; split; vm_compute; reflexivity.
Qed.
Print Assumptions C20_vector_at_refuted.

(** C21 *)
Theorem C21_debug_preview b e s v :
  wf_struct s -> slice_ok v ->
  let l := records s (sl_bytes v) in
  av_debug b e s v = Ret (Z.of_nat (length l), firstn 10 l, (10 <? length l)%nat).
Proof. exact (av_debug_spec b e s v). Qed.
Print Assumptions C21_debug_preview.

Example C21_example :
  let s := mkStruct 1 [mkField U8 0 8] in
  av_debug Debug LE s (whole [1; 2; 3; 4; 5; 6; 7; 8; 9; 10; 11])
    = Ret (11, [[1]; [2]; [3]; [4]; [5]; [6]; [7]; [8]; [9]; [10]], true) /\
  av_debug Debug LE s (whole [1; 2; 3; 4; 5; 6; 7; 8; 9; 10])
    = Ret (10, [[1]; [2]; [3]; [4]; [5]; [6]; [7]; [8]; [9]; [10]], false).
Proof. split; vm_compute; reflexivity. Qed.
