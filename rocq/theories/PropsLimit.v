(** Property C85: vectors too large for the address space. *)
From Verif Require Import Base BaseFacts Codec CodecSpec Structs StructsSpec StructsFacts.
From Verif Require Import Views ViewsSpec ViewsFacts ViewsExact ViewsLimit.

(** With overflow checks, with_len gives what was asked for or panics. *)
Theorem C85_with_len_debug_partial s n : wf_struct s -> 0 <= n ->
  vec_with_len Debug s n =
  if n * s_size s + 8 <=? 2 ^ 63 - 1 then Ret (zeros (n * s_size s + 8)) else Panic.
Proof. exact (with_len_debug s n). Qed.
Print Assumptions C85_with_len_debug_partial.

(** In release builds the size wraps around. *)
Theorem C85_with_len_release s n : wf_struct s -> 0 <= n ->
  vec_with_len Release s n =
  let q := (n * s_size s + 8) mod 2 ^ 64 in
  if q <=? 2 ^ 63 - 1 then Ret (zeros q) else Panic.
Proof. exact (with_len_release s n). Qed.
Print Assumptions C85_with_len_release.

(** An element of 8 bytes. *)
Definition ex8 := mkStruct 8 [mkField U64 0 64].
Lemma ex8_wf : wf_struct ex8.
Proof. apply wf_struct_dec. reflexivity. Qed.

(** A vector of 2^61 elements of 8 bytes is empty in a release build. *)
Theorem C85_with_len_refuted :
  vec_with_len Debug ex8 (2 ^ 61) = Panic /\
  vec_with_len Release ex8 (2 ^ 61) = Ret (zeros 8) /\
  vec_len Release ex8 (zeros 8) = Ret 0 /\
  vec_at Release ex8 (zeros 8) 0 = Ret (zeros 8).
Proof. repeat split; vm_compute; reflexivity. Qed.
Print Assumptions C85_with_len_refuted.

(** grow appends an element or panics, in all builds.  [vec_inv s data l]:
    the buffer holds exactly the elements [l] and the padding. *)
Theorem C85_grow b s data l : wf_struct s -> s_size s <= 2 ^ 63 - 1 -> vec_inv s data l ->
  if len data + s_size s <=? 2 ^ 63 - 1
  then exists data', vec_grow b s data = Ret (data', Z.of_nat (length l) * s_size s) /\
         vec_inv s data' (l ++ [zero_record s])
  else vec_grow b s data = Panic.
Proof. exact (grow_exact b s data l). Qed.
Print Assumptions C85_grow.

(** reserve changes nothing visible or panics. *)
Theorem C85_reserve b s data l a : wf_struct s -> vec_inv s data l -> 0 <= a ->
  vec_reserve b s data a =
  let add := match b with Debug => a * s_size s + 8 | Release => (a * s_size s + 8) mod 2 ^ 64 end in
  if len data + add <=? 2 ^ 63 - 1 then Ret data else Panic.
Proof. exact (reserve_exact b s data l a). Qed.
Print Assumptions C85_reserve.

Example C85_example :
  vec_with_len Debug ex8 3 = Ret (zeros 32) /\ vec_inv ex8 (zeros 32) [[0]; [0]; [0]] /\
  vec_with_len Release ex8 (2 ^ 60) = Panic /\
  vec_reserve Debug ex8 (zeros 32) 5 = Ret (zeros 32) /\
  vec_reserve Debug ex8 (zeros 32) (2 ^ 60 - 5) = Panic /\
  vec_reserve Release ex8 (zeros 32) (2 ^ 60) = Panic /\
  vec_reserve Release ex8 (zeros 32) (2 ^ 61) = Ret (zeros 32) /\
  omap fst (vec_grow Debug ex8 (zeros 32)) = Ret (zeros 40) /\
  (forall b, vec_grow b (mkStruct (2 ^ 63 - 5) [mkField U64 0 64]) (zeros 8) = Panic).
Proof.
  split; [reflexivity|]. split.
  { exists (zeros 24). split; [reflexivity|]. split; [apply bytes_ok_zeros|]. split; [reflexivity|].
    split; [reflexivity|unfold isize_max; vm_compute; discriminate]. }
  repeat split; try (intros []); vm_compute; reflexivity.
Qed.
