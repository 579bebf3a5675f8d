(** Properties C18, C21, C39 - C41, C59: MultiArrayView and its iterators.
    Vocabulary: [offsets] (the index entries), [pairs] (neighbouring entries),
    [between] (the data between two offsets, or a panic), [mav_shows] (a view
    with these buckets), [bucket_yields] (the item iterator of a bucket gives
    exactly these values, then None). *)
From Verif Require Import Base BaseFacts Codec CodecSpec Structs StructsSpec StructsFacts.
From Verif Require Import Views ViewsSpec ViewsFacts ViewsExact Storage Writers WritersSpec.
From Verif Require Import MultiViews MultiSpec MultiViewFacts MultiViewUse MultiViewExact.
Local Open Scope list_scope.
Local Open Scope Z_scope.

(** ** Example: three buckets, the second one empty. *)
Definition ex_ts : vdesc :=
  [(7, mkStruct 3 [mkField U32 0 24]); (200, mkStruct 4 [mkField U32 0 16; mkField I16 16 16])].
Lemma ex_ts_wf : wf_vdesc ex_ts.
Proof.
  split.
  - repeat (constructor; [split; [unfold is_byte; cbn; lia|apply wf_struct_dec; reflexivity]|]). constructor.
  - repeat constructor; cbn; intuition discriminate.
Qed.
Definition ex_index := whole [0; 0; 0; 0; 4; 0; 0; 0; 4; 0; 0; 0; 13; 0; 0; 0].
Definition ex_data := whole [7; 1; 2; 3; 200; 10; 0; 254; 255; 7; 255; 255; 255].
Definition ex_mav := mkMav ex_index ex_data.
Definition ex_buckets : list (list value) :=
  [[(0%nat, [197121])]; []; [(1%nat, [10; -2]); (0%nat, [16777215])]].
Lemma ex_index_wf : wf_struct (index_struct 4 32).
Proof. apply wf_struct_dec. reflexivity. Qed.
Lemma ex_mav_ok : mav_ok ex_mav.
Proof.
  split; (apply slice_ok_whole; [|unfold len, isize_max; simpl; lia]);
    repeat (constructor; [unfold is_byte; lia|]); constructor.
Qed.
Lemma ex_item t sets m x : (t < length ex_ts)%nat -> sets_ok (v_struct ex_ts t) sets ->
  run_sets Debug LE (v_struct ex_ts t) sets (zeros (s_size (v_struct ex_ts t))) = Ret m ->
  x = apply_sets sets (zero_record (v_struct ex_ts t)) ->
  item_encodes ex_ts (v_tag ex_ts t :: m) (t, x).
Proof. intros. subst. apply item_encodes_run; auto. apply ex_ts_wf. Qed.
Lemma ex_mav_shows : mav_shows ex_ts 4 32 ex_mav ex_buckets.
Proof.
  assert (Hs : forall t sets, Forall (fun o => (fst o < length (s_fields (v_struct ex_ts t)))%nat /\
     in_range (f_prim (field_nth (v_struct ex_ts t) (fst o))) (f_bits (field_nth (v_struct ex_ts t) (fst o))) (snd o)) sets ->
     sets_ok (v_struct ex_ts t) sets) by auto.
  split; [apply ex_mav_ok|]. split; [discriminate|].
  constructor.
  { split; [vm_compute; intuition congruence|]. split; [vm_compute; congruence|].
    exists [[7; 1; 2; 3]]. split; [reflexivity|]. constructor; [|constructor].
    apply (ex_item 0 [(0%nat, 197121)] [1; 2; 3]); [cbn; lia| |reflexivity|reflexivity].
    apply Hs. repeat constructor; cbn; lia. }
  constructor.
  { split; [vm_compute; intuition congruence|]. split; [vm_compute; congruence|].
    exists []. split; [reflexivity|]. constructor. }
  constructor; [|constructor].
  split; [vm_compute; intuition congruence|]. split; [vm_compute; congruence|].
  exists [[200; 10; 0; 254; 255]; [7; 255; 255; 255]]. split; [reflexivity|]. constructor; [|constructor; [|constructor]].
  - apply (ex_item 1 [(0%nat, 10); (1%nat, -2)] [10; 0; 254; 255]); [cbn; lia| |reflexivity|reflexivity].
    apply Hs. repeat constructor; cbn; lia.
  - apply (ex_item 0 [(0%nat, 16777215)] [255; 255; 255]); [cbn; lia| |reflexivity|reflexivity].
    apply Hs. repeat constructor; cbn; lia.
Qed.

(** C39, for any index and data bytes: buckets are the parts of the data
    between neighbouring index entries. *)
Theorem C39_at_exact b e size bits v i :
  wf_struct (index_struct size bits) -> mav_ok v -> 0 <= i < Z.of_nat (length (pairs (offsets size bits v))) ->
  mav_at b e size bits v i = between (ma_data v) (nth (Z.to_nat i) (pairs (offsets size bits v)) (0, 0)).
Proof. intros H. exact (mav_at_ok b e size bits H v i). Qed.
Print Assumptions C39_at_exact.

Theorem C39_slice_exact b size bits v lo hi :
  wf_struct (index_struct size bits) -> mav_ok v -> offsets size bits v <> [] ->
  bound_usize lo -> bound_usize hi ->
  let n := Z.of_nat (length (pairs (offsets size bits v))) in
  range_lo lo <= range_hi hi n <= n ->
  exists w, mav_slice b size bits v lo hi = Ret w /\ mav_ok w /\ ma_data w = ma_data v /\
    offsets size bits w = sublist (range_lo lo) (range_hi hi n - range_lo lo + 1) (offsets size bits v) /\
    offsets size bits w <> [] /\
    pairs (offsets size bits w) = sublist (range_lo lo) (range_hi hi n - range_lo lo) (pairs (offsets size bits v)).
Proof. intros H. exact (mav_slice_ok b size bits H v lo hi). Qed.
Print Assumptions C39_slice_exact.

Theorem C39_iterator_exact b e size bits calls v :
  wf_struct (index_struct size bits) -> mav_ok v -> offsets size bits v <> [] ->
  let ps := pairs (offsets size bits v) in
  exists w, mav_iter_run b e size bits calls v =
      (x <- open_all (ma_data v) (fst (deque_run calls ps)) ;; Ret (x, w)) /\
    mav_ok w /\ offsets size bits w <> [] /\ ma_data w = ma_data v /\
    pairs (offsets size bits w) = snd (deque_run calls ps).
Proof. intros H. exact (mav_iter_ok b e size bits H calls v). Qed.
Print Assumptions C39_iterator_exact.

(** C39, for views that show buckets. *)
Theorem C39_buckets_at b e ts size bits v l i :
  wf_struct (index_struct size bits) -> wf_vdesc ts -> mav_shows ts size bits v l ->
  0 <= i < Z.of_nat (length l) ->
  exists d, mav_at b e size bits v i = Ret d /\ view_inside (ma_data v) d /\
    bucket_yields b e ts d (nth (Z.to_nat i) l []).
Proof.
  intros Hwf Hts H Hi. destruct (mav_shows_at b e size bits Hwf ts v l i Hts H Hi) as (d & E & O & V & B).
  exists d. split; [exact E|]. split; [exact V|]. apply bucket_yields_ok; auto.
Qed.
Print Assumptions C39_buckets_at.

Theorem C39_buckets_slice b ts size bits v l lo hi :
  wf_struct (index_struct size bits) -> mav_shows ts size bits v l -> bound_usize lo -> bound_usize hi ->
  let n := Z.of_nat (length l) in
  range_lo lo <= range_hi hi n <= n ->
  exists w, mav_slice b size bits v lo hi = Ret w /\
    mav_shows ts size bits w (sublist (range_lo lo) (range_hi hi n - range_lo lo) l).
Proof. intros H. exact (mav_shows_slice b size bits H ts v l lo hi). Qed.
Print Assumptions C39_buckets_slice.

Theorem C39_buckets_iterator b e ts size bits v l calls :
  wf_struct (index_struct size bits) -> wf_vdesc ts -> mav_shows ts size bits v l ->
  exists outs w, mav_iter_run b e size bits calls v = Ret (outs, w) /\
    Forall2 (bucket_yields_opt b e ts) outs (fst (deque_run calls l)) /\
    mav_shows ts size bits w (snd (deque_run calls l)).
Proof. intros H. exact (mav_shows_iter b e size bits H ts v l calls). Qed.
Print Assumptions C39_buckets_iterator.

(** Mixed calls on the example; hypotheses by [ex_mav_shows]. *)
Example C39_example :
  offsets 4 32 ex_mav = [0; 4; 4; 13] /\
  fst (deque_run [true; false; false; true] ex_buckets) =
    [Some [(1%nat, [10; -2]); (0%nat, [16777215])]; Some [(0%nat, [197121])]; Some []; None] /\
  (exists outs w, mav_iter_run Debug LE 4 32 [true; false; false; true] ex_mav = Ret (outs, w) /\
     map (option_map sl_bytes) outs = [Some [200; 10; 0; 254; 255; 7; 255; 255; 255]; Some [7; 1; 2; 3]; Some []; None]) /\
  (exists w, mav_slice Release 4 32 ex_mav (Included 1) Unbounded = Ret w /\ offsets 4 32 w = [4; 4; 13]) /\
  (exists d, mav_at Debug LE 4 32 ex_mav 2 = Ret d /\
     exists outs d', item_run ex_ts 3 d = Ret (outs, d') /\
       outs = [Some (1%nat, [10; 0; 254; 255; 7; 255; 255; 255]); Some (0%nat, [255; 255; 255]); None]).
Proof.
  split; [reflexivity|]. split; [reflexivity|]. split; [do 2 eexists; split; reflexivity|].
  split; [eexists; split; reflexivity|]. eexists. split; [reflexivity|]. do 2 eexists. split; reflexivity.
Qed.

(** C18: len of the iterator, in every state reached by iteration. *)
Theorem C18_multi_len_exact_partial b e size bits calls v :
  wf_struct (index_struct size bits) -> mav_ok v -> offsets size bits v <> [] ->
  exists w, mav_iter_run b e size bits calls v =
      (x <- open_all (ma_data v) (fst (deque_run calls (pairs (offsets size bits v)))) ;; Ret (x, w)) /\
    mav_iter_len b size bits w = Ret (Z.of_nat (length (snd (deque_run calls (pairs (offsets size bits v)))))).
Proof.
  intros Hwf Hv Hn. destruct (mav_iter_ok b e size bits Hwf calls v Hv Hn) as (w & E & (O & _) & N & _ & P).
  exists w. split; [exact E|]. unfold mav_iter_len. rewrite mav_len_ok by auto. rewrite P. reflexivity.
Qed.
Print Assumptions C18_multi_len_exact_partial.

Theorem C18_multi_size_hint_refuted b :
  mav_iter_len b 4 32 ex_mav = Ret 3 /\ mav_size_hint ex_mav = (0, None).
Proof. split; destruct b; reflexivity. Qed.
Print Assumptions C18_multi_size_hint_refuted.

(** C21: Debug output. *)
Theorem C21_multi_debug b e ts size bits v l :
  wf_struct (index_struct size bits) -> wf_vdesc ts -> mav_shows ts size bits v l ->
  mav_debug b e size bits ts v = Ret (Z.of_nat (length l), firstn 10 l, (10 <? length l)%nat).
Proof. intros H. exact (mav_shows_debug b e size bits H ts v l). Qed.
Print Assumptions C21_multi_debug.

Example C21_multi_example : mav_debug Debug LE 4 32 ex_ts ex_mav = Ret (3, ex_buckets, false).
Proof. reflexivity. Qed.

(** C40: any bytes, any calls: panic or buckets inside the data; the items of
    any bucket lie inside it and all their getters work. *)
Theorem C40_buckets_inside b e size bits calls v :
  wf_struct (index_struct size bits) -> size <= isize_max -> mav_ok v -> Forall call_usize calls ->
  mav_calls b e size bits calls v = Panic \/
  exists ds w, mav_calls b e size bits calls v = Ret (ds, w) /\ ma_data w = ma_data v /\
    view_inside (ma_index v) (ma_index w) /\ Forall (fun d => slice_ok d /\ view_inside (ma_data v) d) ds.
Proof.
  intros Hwf Hs Hv Hc. destruct (mav_calls_safe b e size bits Hwf calls Hs Hc v Hv) as [|(ds & w & E & _ & D & V & F)]; eauto 10.
Qed.
Print Assumptions C40_buckets_inside.

Theorem C40_items_inside b e ts k d :
  wf_vdesc ts -> slice_ok d ->
  item_run ts k d = Panic \/
  exists outs d', item_run ts k d = Ret (outs, d') /\ length outs = k /\ view_inside d d' /\
    Forall (fun i => match i with
      | None => True
      | Some (t, m) => (t < length ts)%nat /\ handle_inside (v_struct ts t) d m /\
          get_all b e (v_struct ts t) m = Ret (decode (v_struct ts t) (firstn (Z.to_nat (s_size (v_struct ts t))) m))
      end) outs.
Proof.
  intros Hts Hd. destruct (item_run_safe ts k d Hts Hd) as [|(outs & d' & E & L & F & V & _)]; auto. right.
  exists outs, d'. split; [exact E|]. split; [exact L|]. split; [exact V|]. revert F. apply Forall_impl.
  intros [[t m]|]; auto. intros (Ht & Hh). split; auto. split; auto. apply (handle_readable b e _ d); auto. apply wf_vdesc_nth; auto.
Qed.
Print Assumptions C40_items_inside.

Theorem C40_collect_inside ts d :
  wf_vdesc ts -> slice_ok d ->
  item_collect ts d = Panic \/
  exists is, item_collect ts d = Ret is /\
    Forall (fun i => (fst i < length ts)%nat /\ handle_inside (v_struct ts (fst i)) d (snd i)) is.
Proof.
  intros Hts Hd. destruct (item_collect_safe ts d Hts Hd) as [|(is & E & F)]; auto. right. exists is. split; [exact E|].
  revert F. apply Forall_impl. intros [t m] H. exact H.
Qed.
Print Assumptions C40_collect_inside.

Theorem C40_unknown_tag_panics ts d tag rest :
  slice_ok d -> sl_bytes d = tag :: rest -> ~ In tag (map fst ts) -> item_next ts d = Panic.
Proof. exact (item_unknown_tag ts d tag rest). Qed.
Print Assumptions C40_unknown_tag_panics.

Theorem C40_truncated_item_panics ts d t rest :
  wf_vdesc ts -> slice_ok d -> (t < length ts)%nat -> sl_bytes d = v_tag ts t :: rest ->
  len rest < s_size (v_struct ts t) -> item_next ts d = Panic.
Proof. exact (item_truncated ts d t rest). Qed.
Print Assumptions C40_truncated_item_panics.

(** Offsets out of order, offsets out of the data, an unknown and a truncated
    item; and bytes that happen to be fine. *)
Example C40_example :
  mav_at Release LE 4 32 (mkMav (whole [9; 0; 0; 0; 4; 0; 0; 0]) ex_data) 0 = Panic /\
  mav_at Release LE 4 32 (mkMav (whole [9; 0; 0; 0; 14; 0; 0; 0]) ex_data) 0 = Panic /\
  item_next ex_ts (whole [8; 1; 2; 3]) = Panic /\ item_next ex_ts (whole [7; 1; 2]) = Panic /\
  (exists d, mav_at Release LE 4 32 (mkMav (whole [9; 0; 0; 0; 13; 0; 0; 0]) ex_data) 0 = Ret d /\
     item_collect ex_ts d = Ret [(0%nat, [255; 255; 255])]) /\
  (x <- mav_calls Debug LE 4 32 [CNext; CAt 1; CSlice (Included 1) Unbounded; CNextBack; CNext] ex_mav ;; Ret (map sl_bytes (fst x))) =
    Ret [[7; 1; 2; 3]; [200; 10; 0; 254; 255; 7; 255; 255; 255]; [200; 10; 0; 254; 255; 7; 255; 255; 255]].
Proof.
  split; [reflexivity|]. split; [reflexivity|]. split; [reflexivity|]. split; [reflexivity|].
  split; [eexists; split; reflexivity|vm_compute; reflexivity].
Qed.

(** C41 fails: slice(i+1..i) does not panic; it gives a view without any
    index entry, whose len() panics or is usize::MAX. *)
Theorem C41_slice_refuted b size bits v i :
  wf_struct (index_struct size bits) -> mav_ok v -> 0 <= i < av_len (index_struct size bits) (ma_index v) ->
  exists w, mav_slice b size bits v (Included (i + 1)) (Excluded i) = Ret w /\ offsets size bits w = [] /\
    mav_len b size bits w = match b with Debug => Panic | Release => Ret (2 ^ 64 - 1) end.
Proof.
  intros Hwf Hv (H0 & H1). destruct (mav_slice_hole b size bits Hwf v i Hv H0 H1) as (w & E & O & L).
  exists w. split; [exact E|]. split; [exact O|]. rewrite L. destruct b; reflexivity.
Qed.
Print Assumptions C41_slice_refuted.

(** In release builds an excluded lower bound of usize::MAX counts as 0. *)
Theorem C41_excluded_max_refuted size bits v hi :
  mav_slice Release size bits v (Excluded (2 ^ 64 - 1)) hi = mav_slice Release size bits v (Included 0) hi.
Proof. reflexivity. Qed.
Print Assumptions C41_excluded_max_refuted.

(** Every other range out of bounds panics: in builds with overflow checks, *)
Theorem C41_debug_panics_partial size bits v lo hi :
  wf_struct (index_struct size bits) -> mav_ok v -> bound_usize lo -> bound_usize hi ->
  let n := av_len (index_struct size bits) (ma_index v) - 1 in
  ~ (range_lo lo <= range_hi hi n <= n) -> range_lo lo <> range_hi hi n + 1 \/ n < range_hi hi n ->
  mav_slice Debug size bits v lo hi = Panic.
Proof. intros H. exact (mav_slice_out_debug Debug size bits H v lo hi eq_refl). Qed.
Print Assumptions C41_debug_panics_partial.

(** and in all builds if no product overflows. *)
Theorem C41_release_panics_partial b size bits v lo hi :
  wf_struct (index_struct size bits) -> mav_ok v -> bound_usize lo -> bound_usize hi ->
  let n := av_len (index_struct size bits) (ma_index v) - 1 in
  ~ (range_lo lo <= range_hi hi n <= n) -> range_lo lo <> range_hi hi n + 1 \/ n < range_hi hi n ->
  range_lo lo * size < usize_limit -> (range_hi hi n + 1) * size < usize_limit ->
  mav_slice b size bits v lo hi = Panic.
Proof. intros H. exact (mav_slice_out_nowrap b size bits H v lo hi). Qed.
Print Assumptions C41_release_panics_partial.

(** The exact result in release builds, for every range. *)
Theorem C41_release_exact size bits v lo hi :
  wf_struct (index_struct size bits) -> mav_ok v -> bound_usize lo -> bound_usize hi ->
  let p := (range_lo lo * size) mod 2 ^ 64 in
  let q := match hi with
           | Unbounded => sl_len (ma_index v) / size * size
           | _ => ((range_hi hi 0 + 1) * size) mod 2 ^ 64
           end in
  mav_slice Release size bits v lo hi =
    if (p <=? q) && (q <=? sl_len (ma_index v))
    then Ret (mkMav (mkSlice (skipn (Z.to_nat p) (sl_mem (ma_index v))) (q - p)) (ma_data v)) else Panic.
Proof. exact (fun H => mav_slice_release size bits H v lo hi). Qed.
Print Assumptions C41_release_exact.

Example C41_example :
  mav_slice Debug 4 32 ex_mav (Included 3) (Excluded 1) = Panic /\
  mav_slice Release 4 32 ex_mav (Included 1) (Excluded 4) = Panic /\
  (exists w, mav_slice Debug 4 32 ex_mav (Included 3) (Excluded 2) = Ret w /\ mav_len Debug 4 32 w = Panic) /\
  mav_slice Release 4 32 ex_mav (Included (2 ^ 62 + 1)) (Included (2 ^ 62 + 1)) =
    Ret (mkMav (mkSlice [4; 0; 0; 0; 4; 0; 0; 0; 13; 0; 0; 0] 8) ex_data).
Proof.
  split; [reflexivity|]. split; [reflexivity|].
  split; [eexists; split; reflexivity|vm_compute; reflexivity].
Qed.

(** C59: an index without entries. *)
Theorem C59_empty_index_refuted e size bits v :
  wf_struct (index_struct size bits) -> size <= isize_max -> mav_ok v -> offsets size bits v = [] ->
  mav_len Debug size bits v = Panic /\ mav_len Release size bits v = Ret (2 ^ 64 - 1) /\
  mav_is_empty Release size bits v = Ret false /\
  (forall b, mav_next b e size bits v = Panic) /\ (forall b, mav_next_back b e size bits v = Panic).
Proof.
  intros Hwf Hm (Hv & _) Ho. pose proof (offsets_length size bits Hwf v Hv) as L. rewrite Ho in L. cbn [length Z.of_nat] in L.
  assert (Hr : mav_len Release size bits v = Ret (2 ^ 64 - 1)) by (unfold mav_len; rewrite <- L; reflexivity).
  assert (Hd : mav_len Debug size bits v = Panic) by (unfold mav_len; rewrite <- L; reflexivity).
  assert (He : mav_is_empty Release size bits v = Ret false) by (unfold mav_is_empty; rewrite Hr; reflexivity).
  split; [exact Hd|]. split; [exact Hr|]. split; [exact He|]. destruct Hwf as (Hs & _). unfold isize_max in Hm. split; intros [|].
  - unfold mav_next, mav_is_empty. rewrite Hd. reflexivity.
  - unfold mav_next. rewrite He. cbn [obind negb]. cbn iota. unfold mav_at, mav_index_at.
    rewrite av_at_panics_nowrap; [reflexivity|exact Hs|exact Hv|lia|lia|cbn; unfold usize_limit; lia].
  - unfold mav_next_back, mav_is_empty. rewrite Hd. reflexivity.
  - unfold mav_next_back. rewrite He. cbn [obind negb]. cbn iota. rewrite Hr. cbn [obind]. unfold usub. rewrite wrap_ok by (unfold usize_limit; lia).
    cbn [obind]. unfold mav_at, mav_index_at. change (s_size (index_struct size bits)) with size in Hs.
    rewrite av_at_release; [|change (s_size (index_struct size bits)) with size; unfold isize_max; lia|exact Hv|unfold is_usize, usize_limit; lia].
    change (s_size (index_struct size bits)) with size.
    replace ((2 ^ 64 - 1 - 1) * size) with (2 ^ 64 - 2 * size + (size - 1) * 2 ^ 64) by ring.
    rewrite Z.mod_add, Z.mod_small by lia. destruct Hv as (_ & Hv & _). unfold isize_max in Hv.
    destruct (Z.leb_spec (2 ^ 64 - 2 * size + size) (sl_len (ma_index v))); [lia|reflexivity].
Qed.
Print Assumptions C59_empty_index_refuted.

(** An index with one entry is that of an empty multivector. *)
Theorem C59_one_entry_partial b e size bits v x :
  wf_struct (index_struct size bits) -> mav_ok v -> offsets size bits v = [x] ->
  mav_len b size bits v = Ret 0 /\ mav_is_empty b size bits v = Ret true /\
  mav_next b e size bits v = Ret (None, v) /\ mav_next_back b e size bits v = Ret (None, v).
Proof.
  intros Hwf (Hv & _) Ho. pose proof (offsets_length size bits Hwf v Hv) as L. rewrite Ho in L. cbn [length Z.of_nat] in L.
  assert (E : mav_len b size bits v = Ret 0) by (unfold mav_len; rewrite <- L; reflexivity).
  assert (Em : mav_is_empty b size bits v = Ret true) by (unfold mav_is_empty; rewrite E; reflexivity).
  unfold mav_next, mav_next_back. rewrite Em. auto.
Qed.
Print Assumptions C59_one_entry_partial.

(** Three bytes are less than one index entry. *)
Example C59_example :
  let v := mkMav (whole [1; 2; 3]) ex_data in
  offsets 4 32 v = [] /\ mav_len Debug 4 32 v = Panic /\ mav_next Release LE 4 32 v = Panic /\
  offsets 4 32 (mkMav (whole [1; 2; 3; 0; 7]) ex_data) = [197121] /\
  mav_len Debug 4 32 (mkMav (whole [1; 2; 3; 0; 7]) ex_data) = Ret 0.
Proof. repeat split. Qed.
