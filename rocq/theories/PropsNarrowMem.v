(** Property C94: views and vectors in memory on a target whose usize has W
    bits. *)
From Verif Require Import Base BaseFacts Codec CodecSpec Structs StructsSpec StructsFacts Views ViewsSpec ViewsFacts ViewsExact.
From Verif Require Import Storage Writers MultiViews MultiSpec ProfileSpec Width WidthVectors WidthMemory WidthMemFacts WidthSafe.
From Verif Require Import PropsViews PropsMultiViews PropsLimit.
Local Open Scope list_scope.
Local Open Scope Z_scope.

(** With 64 bits this is the code of the rest of the model. *)
Theorem C94_same b e s v calls data ops n :
  view_calls_w 64 b s calls v = view_calls b s calls v /\
  vec_run_w 64 b e s ops data = vec_run b e s ops data /\
  vec_with_len_w 64 b s n = vec_with_len b s n.
Proof. exact (conj (view_calls_64 b s calls v) (conj (vec_run_64 b e s ops data) (with_len_64 b s n))). Qed.
Print Assumptions C94_same.

(** Any calls on a view that fits the address space: the debug build does what
    the one for 64 bits does, the release build does that, too, unless it is a
    panic. *)
Theorem C94_views W s calls v : 1 <= W <= 64 -> 0 < s_size s -> sl_len v <= 2 ^ (W - 1) - 1 ->
  view_calls_w W Debug s calls v = view_calls Debug s calls v /\
  (view_calls Debug s calls v <> Panic -> view_calls_w W Release s calls v = view_calls Debug s calls v).
Proof. exact (views_fit W s calls v). Qed.
Print Assumptions C94_views.

(** The same for multi-arrays, if the offsets fit usize (cf. C82 otherwise). *)
Theorem C94_multi_views W e size bits calls v : 1 <= W <= 64 -> wf_struct (index_struct size bits) -> bits <= W ->
  slice_ok (ma_index v) -> sl_len (ma_index v) <= 2 ^ (W - 1) - 1 ->
  mav_calls_w W Debug e size bits calls v = mav_calls Debug e size bits calls v /\
  (mav_calls Debug e size bits calls v <> Panic -> mav_calls_w W Release e size bits calls v = mav_calls Debug e size bits calls v).
Proof. exact (multi_views_fit W e size bits calls v). Qed.
Print Assumptions C94_multi_views.

(** Any use of a vector: a debug build panics or does what the one for 64 bits
    does, and then the release build does the same. *)
Theorem C94_vectors W e s ops data n : 1 <= W <= 64 ->
  agrees (vec_run_w W Debug e s ops data) (vec_run Debug e s ops data) /\
  agrees (vec_run_w W Debug e s ops data) (vec_run_w W Release e s ops data) /\
  agrees (vec_with_len_w W Debug s n) (vec_with_len Debug s n) /\
  agrees (vec_with_len_w W Debug s n) (vec_with_len_w W Release s n).
Proof.
  intros HW. exact (conj (wd_vec_run W HW e s ops data) (conj (wa_vec_run W e s ops data)
    (conj (wd_with_len W HW s n) (wa_with_len W s n)))).
Qed.
Print Assumptions C94_vectors.

(** When it panics.  In release builds the size of a new vector wraps. *)
Theorem C94_with_len W b s n : 1 <= W <= 64 -> wf_struct s -> 0 <= n ->
  vec_with_len_w W b s n =
  let q := match b with Debug => n * s_size s + 8 | Release => (n * s_size s + 8) mod 2 ^ W end in
  if q <=? 2 ^ (W - 1) - 1 then Ret (zeros q) else Panic.
Proof. exact (with_len_w_exact W b s n). Qed.
Print Assumptions C94_with_len.

Theorem C94_grow W b s data l : 1 <= W <= 64 -> wf_struct s -> s_size s <= 2 ^ (W - 1) - 1 -> vec_inv s data l ->
  len data <= 2 ^ (W - 1) - 1 ->
  vec_grow_w W b s data = if len data + s_size s <=? 2 ^ (W - 1) - 1 then vec_grow b s data else Panic.
Proof. exact (grow_w_exact W b s data l). Qed.
Print Assumptions C94_grow.

(** Reading a vector that fits. *)
Theorem C94_read_vectors W s data i : 1 <= W <= 64 -> len data <= 2 ^ (W - 1) - 1 ->
  (8 <= len data -> forall b, vec_len_w W b s data = vec_len b s data /\ vec_as_view_w W b data = vec_as_view b data) /\
  vec_at_w W Debug s data i = vec_at Debug s data i /\
  (forall m, vec_at_w W Debug s data i = Ret m -> vec_at_w W Release s data i = Ret m).
Proof.
  intros HW H. split; [|exact (conj (fit_at W HW s data i H) (fit_at_release W s data i))].
  intros H8 b. exact (conj (fit_len W HW b s data (conj H8 H)) (fit_as_view W HW b data (conj H8 H))).
Qed.
Print Assumptions C94_read_vectors.

(** Whatever wraps around: in both builds, calls panic or stay inside. *)
Theorem C94_safe W b s calls v : 1 <= W <= 64 -> 0 < s_size s <= 2 ^ (W - 1) - 1 -> slice_ok v -> sl_len v <= 2 ^ (W - 1) - 1 ->
  view_calls_w W b s calls v = Panic \/
  exists hs w, view_calls_w W b s calls v = Ret (hs, w) /\ view_inside v w /\ Forall (handle_inside s v) hs.
Proof.
  intros HW Hs Hv Hl. destruct (calls_yields W b HW s calls v Hs Hv Hl) as [E|([hs w] & E & _ & I & F)]; eauto 10.
Qed.
Print Assumptions C94_safe.
Theorem C94_multi_safe W b e size bits calls v : 1 <= W <= 64 -> wf_struct (index_struct size bits) -> size <= 2 ^ (W - 1) - 1 ->
  mav_ok v -> sl_len (ma_index v) <= 2 ^ (W - 1) - 1 ->
  mav_calls_w W b e size bits calls v = Panic \/
  exists ds w, mav_calls_w W b e size bits calls v = Ret (ds, w) /\ ma_data w = ma_data v /\
    view_inside (ma_index v) (ma_index w) /\ Forall (fun d => slice_ok d /\ view_inside (ma_data v) d) ds.
Proof.
  intros HW Hwf Hs Hv Hl.
  destruct (mav_calls_yields W b HW e size bits Hwf Hs calls v Hv Hl) as [E|([ds w] & E & _ & D & I & F)]; eauto 10.
Qed.
Print Assumptions C94_multi_safe.

(** Intended: the panics are those of the 64-bit target in release builds, too.
    False for structs whose size is a power of two: positions wrap around. *)
Theorem C94_release_refuted W s v k : 1 <= W <= 63 -> 0 < s_size s -> s_size s * k = 2 ^ W -> slice_ok v ->
  s_size s <= sl_len v <= 2 ^ (W - 1) - 1 ->
  (forall b, av_at b s v k = Panic) /\ av_at_w W Release s v k = Ret (sl_mem v).
Proof. exact (at_w_wrong W s v k). Qed.
Print Assumptions C94_release_refuted.

(** ** Example: 32 bits, elements of eight bytes *)
Definition nm_view := whole (zeros 8 ++ le_bytes 8 7).
Definition nm_calls := [CAt 1; CSlice (Excluded 0) Unbounded; CNextBack; CNext].
Lemma nm_view_ok : slice_ok nm_view.
Proof. apply slice_ok_whole; [repeat (constructor; [unfold is_byte; lia|]); constructor|vm_compute; discriminate]. Qed.
Example C94_example :
  0 < s_size ex8 /\ s_size ex8 * 2 ^ 29 = 2 ^ 32 /\ slice_ok nm_view /\ s_size ex8 <= sl_len nm_view <= 2 ^ (32 - 1) - 1 /\
  view_calls_w 32 Debug ex8 nm_calls nm_view = Ret ([le_bytes 8 7; le_bytes 8 7], mkSlice (le_bytes 8 7) 0) /\
  (forall b, view_calls_w 32 b ex8 [CAt 2] nm_view = Panic) /\
  view_calls_w 32 Debug ex8 [CAt (2 ^ 29 + 1)] nm_view = Panic /\
  view_calls_w 32 Release ex8 [CAt (2 ^ 29 + 1)] nm_view = Ret ([le_bytes 8 7], nm_view) /\
  vec_with_len_w 32 Release ex8 (2 ^ 29 + 1) = Ret (zeros 16) /\ vec_with_len_w 32 Debug ex8 (2 ^ 29 + 1) = Panic /\
  (forall b, vec_as_view_w 32 b (zeros 16 ++ zeros 8) = Ret (mkSlice (zeros 24) 16) /\ vec_len_w 32 b ex8 (zeros 24) = Ret 2) /\
  vec_at_w 32 Debug ex8 (zeros 8 ++ le_bytes 8 7 ++ zeros 8) 1 = Ret (le_bytes 8 7 ++ zeros 8) /\
  vec_run_w 8 Debug LE ex8 (repeat (VGrow [(0%nat, 1)]) 14) (zeros 8) = vec_run Debug LE ex8 (repeat (VGrow [(0%nat, 1)]) 14) (zeros 8) /\
  vec_run_w 8 Debug LE ex8 (repeat (VGrow [(0%nat, 1)]) 15) (zeros 8) = Panic /\
  wf_struct (index_struct 4 32) /\ slice_ok (ma_index ex_mav) /\ sl_len (ma_index ex_mav) <= 2 ^ (32 - 1) - 1 /\
  omap (fun r => map sl_bytes (fst r)) (mav_calls_w 32 Release BE 4 32 [CAt 2; CNext; CSlice (Included 1) Unbounded; CNextBack] ex_mav) =
    Ret [[200; 10; 0; 254; 255; 7; 255; 255; 255]; [7; 1; 2; 3]; [200; 10; 0; 254; 255; 7; 255; 255; 255]].
Proof.
  split; [reflexivity|]. split; [reflexivity|]. split; [apply nm_view_ok|]. split; [vm_compute; split; discriminate|].
  split; [vm_compute; reflexivity|]. split; [intros []; vm_compute; reflexivity|].
  do 4 (split; [vm_compute; reflexivity|]). split; [intros []; vm_compute; split; reflexivity|]. do 3 (split; [vm_compute; reflexivity|]).
  split; [apply ex_index_wf|]. split; [apply ex_mav_ok|]. split; [vm_compute; discriminate|]. vm_compute. reflexivity.
Qed.
