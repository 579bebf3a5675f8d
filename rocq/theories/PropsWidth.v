(** Property C82: the width of usize.  The rest of the model is about a 64-bit
    target; here a target has W bits, 8 <= W <= 64, and no slice is longer than
    2^(W-1)-1 bytes.  Sizes and offsets are stored as u64 and narrowed with
    [as usize], so a file means the same everywhere only while these numbers
    fit; the theorems say exactly what happens otherwise. *)
From Verif Require Import Base BaseFacts Codec CodecSpec Structs StructsSpec StructsFacts.
From Verif Require Import Views ViewsSpec Storage StorageSpec.
From Verif Require Import Writers WritersSpec MultiViews MultiSpec MultiViewUse PropsMultiViews Width WidthFacts.
Local Open Scope list_scope.
Local Open Scope Z_scope.

(** The W-bit readers with W = 64 are the ones of the rest of the model. *)
Theorem C82_same b e name expected c sc : bytes_ok c ->
  check_resource_w 64 b e name expected (whole c) sc = check_resource b e name expected (whole c) sc.
Proof. exact (check_64 b e name expected c sc). Qed.
Print Assumptions C82_same.

(** What a W-bit reader accepts: the header is right up to a multiple of 2^W. *)
Theorem C82_accepts W b e name expected c sc D :
  8 <= W <= 64 -> bytes_ok c -> len c <= 2 ^ (W - 1) - 1 ->
  ((exists d, check_resource_w W b e name expected (whole c) (whole sc) = Ret (Ok d) /\ sl_bytes d = D) <->
   utf8_ok sc = true /\ sc = expected /\ exists h pad, c = le_bytes 8 h ++ D ++ pad /\
     len pad = 8 /\ 0 <= h < 2 ^ 64 /\ h mod 2 ^ W = len D).
Proof. exact (check_exact W b e name expected c sc D). Qed.
Print Assumptions C82_accepts.

(** Every resource a 64-bit reader accepts and a W-bit process can hold is
    accepted there, with the same data. *)
Theorem C82_keeps W b e name expected c sc d :
  8 <= W <= 64 -> bytes_ok c -> len c <= 2 ^ (W - 1) - 1 ->
  check_resource b e name expected (whole c) (whole sc) = Ret (Ok d) ->
  check_resource_w W b e name expected (whole c) (whole sc) = Ret (Ok d).
Proof. exact (check_keeps W b e name expected c sc d). Qed.
Print Assumptions C82_keeps.

(** Intended: the result does not depend on the width.  Missing: headers of
    2^W - 16 and more, on which it does (C82_refuted). *)
Theorem C82_portable_partial W b e name expected c sc :
  8 <= W <= 64 -> bytes_ok c -> len c <= 2 ^ (W - 1) - 1 -> (16 <= len c -> header c + 16 < 2 ^ W) ->
  check_resource_w W b e name expected (whole c) (whole sc) = check_resource b e name expected (whole c) (whole sc).
Proof. exact (check_portable W b e name expected c sc). Qed.
Print Assumptions C82_portable_partial.

(** A bucket of a multi-array: both offsets lose their high bits. *)
Theorem C82_bucket W b e size bits v i :
  8 <= W <= 64 -> wf_struct (index_struct size bits) -> mav_ok v -> sl_len (ma_index v) <= 2 ^ (W - 1) - 1 ->
  0 <= i < Z.of_nat (length (pairs (offsets size bits v))) ->
  let p := nth (Z.to_nat i) (pairs (offsets size bits v)) (0, 0) in
  mav_at_w W b e size bits v i = between (ma_data v) (fst p mod 2 ^ W, snd p mod 2 ^ W).
Proof. intros HW Hwf. exact (at_w W b e size bits HW Hwf v i). Qed.
Print Assumptions C82_bucket.

(** So the buckets of a view that is in order are the same on every target
    that can hold it. *)
Theorem C82_buckets_keep W b e size bits ts v l i :
  8 <= W <= 64 -> wf_struct (index_struct size bits) -> mav_shows ts size bits v l ->
  sl_len (ma_index v) <= 2 ^ (W - 1) - 1 -> sl_len (ma_data v) <= 2 ^ (W - 1) - 1 ->
  0 <= i < Z.of_nat (length l) ->
  mav_at_w W b e size bits v i = mav_at b e size bits v i.
Proof. intros HW Hwf. exact (at_shows W b e size bits HW Hwf ts v l i). Qed.
Print Assumptions C82_buckets_keep.

(** Intended: so are those of any view.  Missing: offsets of 2^W and more. *)
Theorem C82_bucket_portable_partial W b e size bits v i :
  8 <= W <= 64 -> wf_struct (index_struct size bits) -> mav_ok v -> sl_len (ma_index v) <= 2 ^ (W - 1) - 1 ->
  0 <= i < Z.of_nat (length (pairs (offsets size bits v))) ->
  Forall (fun x => 0 <= x < 2 ^ W) (offsets size bits v) ->
  mav_at_w W b e size bits v i = mav_at b e size bits v i.
Proof. intros HW Hwf. exact (at_portable W b e size bits HW Hwf v i). Qed.
Print Assumptions C82_bucket_portable_partial.

(** ** Examples *)
(** Three bytes of data with the header 3, and with the header 2^32 + 3. *)
Definition wd_good : list Z := [3;0;0;0;0;0;0;0; 10;20;30; 0;0;0;0;0;0;0;0].
Definition wd_high : list Z := [3;0;0;0;1;0;0;0; 10;20;30; 0;0;0;0;0;0;0;0].
(** A header of 2^32 - 4: the sum does not fit 32 bits. *)
Definition wd_edge : list Z := [252;255;255;255;0;0;0;0; 10;20;30; 0;0;0;0;0;0;0;0].
Definition wd_read W b c :=
  match check_resource_w W b LE "r" [65] (whole c) (whole [65]) with
  | Ret (Ok d) => Ret (Some (sl_bytes d)) | Ret (Er _) => Ret None | Panic => Panic | UB => UB | Crash => Crash
  end.
(** One bucket, from 2^32 to 2^32 + 4, in data of 13 bytes. *)
Definition wd_mav := mkMav (whole [0;0;0;0;1; 4;0;0;0;1]) ex_data.

Lemma wd_bytes : bytes_ok wd_good /\ bytes_ok wd_high /\ bytes_ok wd_edge.
Proof. repeat split; repeat (constructor; [unfold is_byte; lia|]); constructor. Qed.

Example C82_example :
  (wd_read 32 Debug wd_good = Ret (Some [10;20;30]) /\ wd_read 64 Debug wd_good = Ret (Some [10;20;30])) /\
  (header wd_good + 16 < 2 ^ 32 /\ len wd_good <= 2 ^ (32 - 1) - 1 /\ bytes_ok wd_good) /\
  (exists d, mav_at_w 32 Debug LE 4 32 ex_mav 0 = Ret d /\ sl_bytes d = [7; 1; 2; 3]) /\
  mav_shows ex_ts 4 32 ex_mav ex_buckets /\ wf_struct (index_struct 5 40).
Proof.
  split; [split; vm_compute; reflexivity|]. split.
  { split; [vm_compute; congruence|]. split; [vm_compute; congruence|apply wd_bytes]. }
  split; [eexists; split; vm_compute; reflexivity|]. split; [exact ex_mav_shows|]. apply wf_struct_dec. reflexivity.
Qed.

(** The same file is read on a 32-bit target and refused on a 64-bit one, or
    stops a 32-bit debug build; and a bucket appears where a 64-bit build
    panics. *)
Theorem C82_refuted :
  ~ (forall W b e name expected c sc, 8 <= W <= 64 -> bytes_ok c -> len c <= 2 ^ (W - 1) - 1 ->
       check_resource_w W b e name expected (whole c) (whole sc) =
       check_resource b e name expected (whole c) (whole sc)) /\
  (wd_read 32 Debug wd_high = Ret (Some [10;20;30]) /\ wd_read 64 Debug wd_high = Ret None) /\
  (wd_read 32 Debug wd_edge = Panic /\ wd_read 32 Release wd_edge = Ret None /\ wd_read 64 Debug wd_edge = Ret None) /\
  ((exists d, mav_at_w 32 Debug LE 5 40 wd_mav 0 = Ret d /\ sl_bytes d = [7; 1; 2; 3]) /\
   mav_at Debug LE 5 40 wd_mav 0 = Panic).
Proof.
  split.
  { intros H. specialize (H 32 Debug LE "r"%string [65] wd_high [65] ltac:(lia) (proj1 (proj2 wd_bytes)) ltac:(vm_compute; congruence)).
    vm_compute in H. discriminate. }
  split; [split; vm_compute; reflexivity|]. split; [repeat split; vm_compute; reflexivity|].
  split; [eexists; split; vm_compute; reflexivity|vm_compute; reflexivity].
Qed.
Print Assumptions C82_refuted.
