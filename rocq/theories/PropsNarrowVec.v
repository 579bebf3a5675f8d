(** Property C93: external vectors and multivectors on a target whose usize has
    W bits.  The headers are u64, but the counts of written bytes and the
    offsets in the index of a multivector are computed in usize (vector.rs,
    multivector.rs, storage.rs:315). *)
From Verif Require Import Base BaseFacts Codec CodecSpec Storage PathFacts StorageSpec StorageFacts Structs StructsSpec StructsFacts Views ViewsSpec ViewsFacts.
From Verif Require Import Writers WritersSpec MultiViews MultiSpec MultiVecFacts Width Conc ConcSpec ConcVec.
From Verif Require Import WidthWriters WidthVectors WidthVecSpec WidthVecFacts.
From Verif Require Import PropsStorage PropsExtVec PropsMultiViews PropsMultiVec.
Local Open Scope list_scope.
Local Open Scope Z_scope.

(** With 64 bits this is the code of the rest of the model. *)
Theorem C93_same b e lim st name schema w :
  (forall s els, vector_session_w 64 b e lim s st name schema els w = vector_session b e lim s st name schema els w) /\
  (forall size bits ts els, multi_session_w 64 b e lim size bits ts st name schema els w =
    multi_session b e lim size bits ts st name schema els w).
Proof.
  exact (conj (fun s els => vector_64 b e lim s st name schema els w)
    (fun size bits ts els => multi_64 b e lim size bits ts st name schema els w)).
Qed.
Print Assumptions C93_same.

(** What an external vector leaves, and when it panics.  Nothing fails and
    nothing is in the way; the buffer fits the address space. *)
Theorem C93_vector W b e lim s st name schema els w : 1 <= W <= 64 ->
  wf_struct s -> Forall (sets_ok s) els -> Z.max lim 8 + s_size s <= 2 ^ (W - 1) - 1 ->
  w_faults w = [] -> fresh_name st name w -> unblocked st name w ->
  let D := elements_bytes s els in
  exists w1,
    if match b with Debug => 2 ^ W <=? len D | Release => false end
    then vector_session_w W b e lim s st name schema els w = (Panic, w1)
    else vector_session_w W b e lim s st name schema els w = (Ret (Ok tt), w1) /\
      bytes_at (cell_at st name) w1 = Some (le_bytes 8 (len D mod 2 ^ W) ++ D ++ zeros 8) /\
      bytes_at (cell_at st (schema_name name)) w1 = Some schema.
Proof. exact (vector_end W b e lim s st name schema els w). Qed.
Print Assumptions C93_vector.

(** The same for a multivector.  A debug build panics eight bytes before the
    data reaches 2^W: the offset is computed from a length with the padding
    (multivector.rs:186-193). *)
Theorem C93_multi W b e lim size bits ts st name schema els w : 1 <= W <= 64 ->
  wf_struct (index_struct size bits) -> wf_vdesc ts -> valid_name name -> Forall (items_ok ts) els ->
  Z.max lim 8 + size <= 2 ^ (W - 1) - 1 ->
  Forall (fun items => Z.max lim 8 + len (items_bytes ts items) <= 2 ^ (W - 1) - 1) els ->
  len (List.concat (map (items_bytes ts) els)) < 2 ^ bits ->
  w_faults w = [] -> mv_fresh st name w -> mv_unblocked st name w ->
  let I := narrow_index W size bits 0 (map (items_bytes ts) els) in
  let D := List.concat (map (items_bytes ts) els) in
  exists w1,
    if match b with Debug => (2 ^ W <=? len I) || (2 ^ W <=? len D + 8) | Release => false end
    then multi_session_w W b e lim size bits ts st name schema els w = (Panic, w1)
    else multi_session_w W b e lim size bits ts st name schema els w = (Ret (Ok tt), w1) /\
      bytes_at (cell_at st (index_name name)) w1 = Some (le_bytes 8 (len I mod 2 ^ W) ++ I ++ zeros 8) /\
      bytes_at (cell_at st (schema_name (index_name name))) w1 = Some (index_schema schema) /\
      bytes_at (cell_at st name) w1 = Some (le_bytes 8 (len D mod 2 ^ W) ++ D ++ zeros 8) /\
      bytes_at (cell_at st (schema_name name)) w1 = Some schema.
Proof. exact (multi_end W b e lim size bits ts st name schema els w). Qed.
Print Assumptions C93_multi.

(** Intended: what was written with success can be read on a 64-bit target.
    Missing, because it is false: vectors from 2^W bytes on.  Those are
    rejected; no vector is read as anything but its elements. *)
Theorem C93_vector_read_partial W b b' e e' lim s id base name schema els w w1 : 1 <= W <= 64 ->
  let st := FileStorage id base in
  wf_struct s -> Forall (sets_ok s) els -> Z.max lim 8 + s_size s <= 2 ^ (W - 1) - 1 ->
  len (elements_bytes s els) + 16 <= isize_max -> schema_ok st schema ->
  w_faults w = [] -> fresh_name st name w -> unblocked st name w ->
  vector_session_w W b e lim s st name schema els w = (Ret (Ok tt), w1) ->
  if len (elements_bytes s els) <? 2 ^ W
  then exists sl, fresh_read b' e' base name schema w1 = Ret (Ok sl) /\ slice_ok sl /\
    records s (sl_bytes sl) = elements s els /\ array_of s (sl_bytes sl) (elements s els)
  else fresh_read b' e' base name schema w1 = Ret (Er EUnexpectedDataSize).
Proof. exact (vector_narrow_read W b b' e e' lim s id base name schema els w w1). Qed.
Print Assumptions C93_vector_read_partial.

(** The same for multivectors, and with the same gap. *)
Theorem C93_multi_read_partial W b b' e e' lim size bits ts id base name schema els w w1 : 1 <= W <= 64 ->
  let st := FileStorage id base in
  let I := narrow_index W size bits 0 (map (items_bytes ts) els) in
  let D := List.concat (map (items_bytes ts) els) in
  wf_struct (index_struct size bits) -> wf_vdesc ts -> valid_name name -> Forall (items_ok ts) els ->
  Z.max lim 8 + size <= 2 ^ (W - 1) - 1 ->
  Forall (fun items => Z.max lim 8 + len (items_bytes ts items) <= 2 ^ (W - 1) - 1) els ->
  len D < 2 ^ bits -> len D + 16 <= isize_max -> len I + 16 <= isize_max -> mv_schema_ok st schema ->
  w_faults w = [] -> mv_fresh st name w -> mv_unblocked st name w ->
  multi_session_w W b e lim size bits ts st name schema els w = (Ret (Ok tt), w1) ->
  if (len I <? 2 ^ W) && (len D <? 2 ^ W)
  then exists iv d, fresh_read b' e' base (index_name name) (index_schema schema) w1 = Ret (Ok iv) /\
    fresh_read b' e' base name schema w1 = Ret (Ok d) /\ mav_shows ts size bits (mkMav iv d) (buckets ts els)
  else fresh_read b' e' base (index_name name) (index_schema schema) w1 = Ret (Er EUnexpectedDataSize) \/
    fresh_read b' e' base name schema w1 = Ret (Er EUnexpectedDataSize).
Proof. exact (multi_narrow_read W b b' e e' lim size bits ts id base name schema els w w1). Qed.
Print Assumptions C93_multi_read_partial.

(** There are such vectors for every struct, in every release build, and such
    multivectors on 32-bit targets for every index of 43 bits or more. *)
Theorem C93_vector_read_refuted W e lim s id base name schema w : 1 <= W <= 62 ->
  let st := FileStorage id base in
  wf_struct s -> Z.max lim 8 + s_size s <= 2 ^ (W - 1) - 1 -> s_size s * 2 ^ W + 16 <= isize_max -> schema_ok st schema ->
  w_faults w = [] -> fresh_name st name w -> unblocked st name w ->
  exists els w1, Forall (sets_ok s) els /\ vector_session_w W Release e lim s st name schema els w = (Ret (Ok tt), w1) /\
    forall b' e', fresh_read b' e' base name schema w1 = Ret (Er EUnexpectedDataSize).
Proof. exact (vector_lost W e lim s id base name schema w). Qed.
Print Assumptions C93_vector_read_refuted.

Theorem C93_multi_read_refuted e size bits ts id base name schema w :
  let st := FileStorage id base in
  wf_struct (index_struct size bits) -> size <= 8 -> 43 <= bits -> wf_vdesc ts -> (0 < length ts)%nat ->
  s_size (v_struct ts 0) <= 1000 -> valid_name name -> mv_schema_ok st schema ->
  w_faults w = [] -> mv_fresh st name w -> mv_unblocked st name w ->
  exists els w1, Forall (items_ok ts) els /\
    multi_session_w 32 Release e FLUSH_LIMIT size bits ts st name schema els w = (Ret (Ok tt), w1) /\
    forall b' e', fresh_read b' e' base name schema w1 = Ret (Er EUnexpectedDataSize).
Proof. exact (multi_lost e size bits ts id base name schema w). Qed.
Print Assumptions C93_multi_read_refuted.

(** ** Example: a target with 8 bits, and the structures of C93_multi_read_refuted
    on one with 32 bits. *)
Definition nv_els (n : nat) : list (list (nat * Z)) := repeat [(0%nat, 5)] n.
Definition nv_items (n : nat) : list (list (nat * list (nat * Z))) := repeat [(0%nat, [(0%nat, 197121)])] n.
Lemma nv_els_ok n : Forall (sets_ok ex_struct) (nv_els n).
Proof.
  apply Forall_forall. intros x H. apply repeat_spec in H. subst x.
  constructor; [split; cbn; lia|constructor].
Qed.
Lemma nv_items_ok n : Forall (items_ok ex_ts) (nv_items n).
Proof.
  apply Forall_forall. intros x H. apply repeat_spec in H. subst x.
  constructor; [|constructor]. split; [cbn; lia|]. constructor; [split; cbn; lia|constructor].
Qed.
Lemma nv_items_fit n : Forall (fun items => Z.max 9 8 + len (items_bytes ex_ts items) <= 2 ^ (8 - 1) - 1) (nv_items n).
Proof. apply Forall_forall. intros x H. apply repeat_spec in H. subst x. vm_compute. discriminate. Qed.
Definition nv_vector b n := vector_session_w 8 b LE 9 ex_struct ex_fs "x" [65] (nv_els n) ex_w.
Definition nv_multi b n := multi_session_w 8 b LE 9 4 32 ex_ts ex_fs "x" [65] (nv_items n) ex_w.
Definition nv_back {E : Type} (r : outcome (result unit E) * world) name schema :=
  match r with
  | (Ret (Ok _), w) => match fresh_read Debug BE "/d" name schema w with
                       | Ret (Ok sl) => Some (Some (len (sl_bytes sl)))
                       | _ => Some None
                       end
  | _ => None
  end.
Definition nv_results :=
  (map (fun n => (nv_back (nv_vector Debug n) "x" [65], nv_back (nv_vector Release n) "x" [65])) [85%nat; 86%nat],
   map (fun n => (nv_back (nv_multi Debug n) "x" [65], nv_back (nv_multi Release n) "x" [65],
                  nv_back (nv_multi Release n) (index_name "x") (index_schema [65]))) [61%nat; 62%nat; 63%nat; 64%nat]).
(** A vector of 86 elements has 258 bytes; a debug build panics, a release build
    reports success and the file is rejected.  A multivector with 248 bytes of
    data makes a debug build panic although it would fit; at 252 bytes the index
    no longer fits. *)
Example C93_example :
  (forall n, Forall (sets_ok ex_struct) (nv_els n) /\ Forall (items_ok ex_ts) (nv_items n) /\
    Forall (fun items => Z.max 9 8 + len (items_bytes ex_ts items) <= 2 ^ (8 - 1) - 1) (nv_items n)) /\
  wf_struct ex_struct /\ wf_struct (index_struct 4 32) /\ wf_struct (index_struct 8 64) /\ wf_vdesc ex_ts /\
  Z.max 9 8 + s_size ex_struct <= 2 ^ (8 - 1) - 1 /\ s_size ex_struct * 2 ^ 8 + 16 <= isize_max /\
  s_size (v_struct ex_ts 0) <= 1000 /\ schema_ok ex_fs [65] /\ mv_schema_ok ex_fs [65] /\ valid_name "x" /\
  fresh_name ex_fs "x" ex_w /\ unblocked ex_fs "x" ex_w /\ mv_fresh ex_fs "x" ex_w /\ mv_unblocked ex_fs "x" ex_w /\
  w_faults ex_w = [] /\
  nv_results =
   ([(Some (Some 255), Some (Some 255)); (None, Some None)],
    [(Some (Some 244), Some (Some 244), Some (Some 248)); (None, Some (Some 248), Some (Some 252));
     (None, Some (Some 252), Some None); (None, Some None, Some None)]) /\
  (* the offsets in the index of the last one have lost their high bits *)
  (exists I, bytes_at (cell_at ex_fs (index_name "x")) (snd (nv_multi Release 65)) =
     Some (le_bytes 8 (264 mod 2 ^ 8) ++ I ++ le_bytes 4 252 ++ le_bytes 4 (256 - 256) ++ le_bytes 4 (260 - 256) ++ zeros 8)).
Proof.
  split; [intros n; repeat split; [apply nv_els_ok|apply nv_items_ok|apply nv_items_fit]|].
  split; [apply ex_struct_wf|]. split; [apply ex_index_wf|]. split; [apply wf_struct_dec; reflexivity|]. split; [apply ex_ts_wf|].
  split; [vm_compute; discriminate|]. split; [vm_compute; discriminate|]. split; [vm_compute; discriminate|].
  split; [apply mx_schema|]. split; [apply mx_schema|]. split; [repeat split; discriminate|].
  split; [apply mx_fresh_file|]. split; [apply mx_unblocked|]. split; [apply mx_fresh_file|]. split; [apply mx_unblocked|].
  split; [reflexivity|]. split; [vm_compute; reflexivity|].
  exists (List.concat (map (fun k => le_bytes 4 (4 * Z.of_nat k)) (seq 0 63))). vm_compute. reflexivity.
Qed.
