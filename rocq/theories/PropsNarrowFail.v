(** Property C95: resources, external vectors and multivectors written on a
    target whose usize has W bits, when calls may fail or the process may die at
    any point. *)
From Verif Require Import Base Codec Storage StorageSpec Structs Views Writers MultiViews MultiSpec ProfileSpec.
From Verif Require Import Conc WidthWriters WidthVectors WidthAgree WidthFit.
From Verif Require Import PropsStorage PropsExtVec PropsMultiViews PropsNarrowVec.
Local Open Scope list_scope.
Local Open Scope Z_scope.

(** A debug build panics or does what the debug build for 64 bits does: the same
    result, the same disk and the same memory storages, whatever fails. *)
Theorem C95_debug W e lim st name schema : 1 <= W <= 64 ->
  (forall cs, magrees (stream_w W Debug e st name schema cs) (stream_resource Debug e st name schema cs)) /\
  (forall s els, magrees (vector_session_w W Debug e lim s st name schema els) (vector_session Debug e lim s st name schema els)) /\
  (forall size bits ts els, magrees (multi_session_w W Debug e lim size bits ts st name schema els)
    (multi_session Debug e lim size bits ts st name schema els)).
Proof.
  exact (fun HW => conj (ww_stream W HW e st name schema) (conj (fun s => ww_vector W HW e lim s st name schema)
    (fun size bits ts => ww_multi W HW e lim size bits ts st name schema))).
Qed.
Print Assumptions C95_debug.

(** It panics or does what the release build for the same target does. *)
Theorem C95_release W e lim st name schema :
  (forall cs, magrees (stream_w W Debug e st name schema cs) (stream_w W Release e st name schema cs)) /\
  (forall s els, magrees (vector_session_w W Debug e lim s st name schema els) (vector_session_w W Release e lim s st name schema els)) /\
  (forall size bits ts els, magrees (multi_session_w W Debug e lim size bits ts st name schema els)
    (multi_session_w W Release e lim size bits ts st name schema els)).
Proof.
  exact (conj (wr_stream W e st name schema) (conj (fun s => wr_vector W e lim s st name schema)
    (fun size bits ts => wr_multi W e lim size bits ts st name schema))).
Qed.
Print Assumptions C95_release.

(** As long as the sizes fit, either build does what the one for 64 bits does, in
    every world. *)
Theorem C95_stream W b e st name schema cs w : 1 <= W <= 64 -> len (List.concat cs) < 2 ^ W ->
  stream_w W b e st name schema cs w = stream_resource b e st name schema cs w.
Proof. exact (fun HW H => stream_fits W HW b e st name schema cs H w). Qed.
Print Assumptions C95_stream.

Theorem C95_vector W b e lim s st name schema els w : 1 <= W <= 64 -> 0 < s_size s ->
  Z.max lim 8 + s_size s <= 2 ^ (W - 1) - 1 -> Z.of_nat (length els) * s_size s < 2 ^ W ->
  vector_session_w W b e lim s st name schema els w = vector_session b e lim s st name schema els w.
Proof. exact (fun HW H1 H2 H3 => vector_fits W HW b e lim s st name schema els H1 H2 H3 w). Qed.
Print Assumptions C95_vector.

Theorem C95_multi W b e lim size bits ts st name schema els w : 1 <= W <= 64 -> 0 < size ->
  Z.max lim 8 + size <= 2 ^ (W - 1) - 1 ->
  Forall (fun items => Forall (fun x => 0 <= s_size (v_struct ts (fst x))) items /\
    Z.max lim 8 + items_size ts items <= 2 ^ (W - 1) - 1) els ->
  8 + fold_right Z.add 0 (map (items_size ts) els) < 2 ^ W -> (Z.of_nat (length els) + 1) * size < 2 ^ W ->
  multi_session_w W b e lim size bits ts st name schema els w = multi_session b e lim size bits ts st name schema els w.
Proof. exact (fun HW H1 H2 H3 H4 H5 => multi_fits W HW b e lim size bits ts st name schema els H1 H2 H3 H4 H5 w). Qed.
Print Assumptions C95_multi.

(** ** Example: 8 bits.  A vector of 20 elements when its first flush fails or is
    cut short, or the process dies in it; and one of 86 elements, which is one
    too many. *)
Definition nf_w (n : nat) (f : fault) : world := set_faults (repeat FOk n ++ [f]) ex_w.
Definition nf_vector b n w := vector_session_w 8 b LE 9 ex_struct ex_fs "x" [65] (nv_els n) w.
Definition nf_file (r : outcome (result unit rs_error) * world) :=
  (fst r, match bytes_at (cell_at ex_fs "x") (snd r) with Some d => len d | None => -1 end).
Example C95_example :
  0 < s_size ex_struct /\ Z.max 9 8 + s_size ex_struct <= 2 ^ (8 - 1) - 1 /\ Z.of_nat (length (nv_els 20)) * s_size ex_struct < 2 ^ 8 /\
  Forall (fun items => Forall (fun x => 0 <= s_size (v_struct ex_ts (fst x))) items /\
    Z.max 9 8 + items_size ex_ts items <= 2 ^ (8 - 1) - 1) (nv_items 10) /\
  8 + fold_right Z.add 0 (map (items_size ex_ts) (nv_items 10)) < 2 ^ 8 /\ (Z.of_nat (length (nv_items 10)) + 1) * 4 < 2 ^ 8 /\
  map (fun f => nf_file (nf_vector Debug 20 (nf_w 7 f))) [FOk; FErr KOther; FShort 2 KOther; FCrash 1] =
   [(Ret (Ok tt), 76); (Panic, 8); (Panic, 10); (Crash, 9)] /\
  (* one element too many, without and with a failure before that *)
  map (fun b => fst (nf_vector b 86 ex_w)) [Debug; Release] = [Panic; Ret (Ok tt)] /\
  map (fun b => fst (nf_vector b 86 (nf_w 7 (FCrash 1)))) [Debug; Release] = [Crash; Crash].
Proof.
  split; [reflexivity|]. split; [vm_compute; discriminate|]. split; [reflexivity|].
  split; [repeat constructor; vm_compute; discriminate|]. split; [reflexivity|]. split; [reflexivity|].
  split; [vm_compute; reflexivity|]. split; vm_compute; reflexivity.
Qed.
