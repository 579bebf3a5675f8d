(** Property C91: streaming on a target whose usize has W bits.  The count of
    the written bytes is a usize (storage.rs:315), the header is a u64, so the
    header is wrong once 2^W bytes were streamed; a release build reports
    success. *)
From Verif Require Import Base BaseFacts Codec CodecSpec Storage StorageSpec StorageFacts Structs Views Writers Width.
From Verif Require Import Conc WidthWriters WidthWriteFacts PropsStorage.
Local Open Scope list_scope.
Local Open Scope Z_scope.

(** With 64 bits this is the code of the rest of the model. *)
Theorem C91_same b e st name schema cs w :
  (forall h d, handle_write_w 64 b h d w = handle_write b h d w) /\
  stream_w 64 b e st name schema cs w = stream_resource b e st name schema cs w.
Proof. exact (conj (fun h d => write_64 b h d w) (stream_64 b e st name schema cs w)). Qed.
Print Assumptions C91_same.

(** What is on the disk after streaming, and when it panics.  Nothing fails and
    nothing is in the way. *)
Theorem C91_stream W b e st name schema cs w :
  0 <= W -> w_faults w = [] -> fresh_name st name w -> unblocked st name w ->
  let D := List.concat cs in
  exists w1,
    if match b with Debug => 2 ^ W <=? len D | Release => false end
    then stream_w W b e st name schema cs w = (Panic, w1)
    else stream_w W b e st name schema cs w = (Ret (Ok tt), w1) /\
      bytes_at (cell_at st name) w1 = Some (le_bytes 8 (len D mod 2 ^ W) ++ D ++ zeros 8) /\
      bytes_at (cell_at st (schema_name name)) w1 = Some schema.
Proof. intros HW. exact (stream_end W st name HW b e schema cs w). Qed.
Print Assumptions C91_stream.

(** What a new process on a 64-bit target reads after a stream that reported
    success.  Intended: always the data.  Missing: streams of 2^W bytes and
    more, which can never be read. *)
Theorem C91_read_partial W b b' e e' id base name schema cs w w1 : 0 <= W ->
  let st := FileStorage id base in
  w_faults w = [] -> fresh_name st name w -> unblocked st name w ->
  data_ok (List.concat cs) -> schema_ok st schema ->
  stream_w W b e st name schema cs w = (Ret (Ok tt), w1) ->
  if len (List.concat cs) <? 2 ^ W
  then exists d, fresh_read b' e' base name schema w1 = Ret (Ok d) /\ sl_bytes d = List.concat cs
  else fresh_read b' e' base name schema w1 = Ret (Er EUnexpectedDataSize).
Proof. exact (stream_read W b b' e e' id base name schema cs w w1). Qed.
Print Assumptions C91_read_partial.

(** On every target of 8 to 62 bits there are such streams, with chunks that fit
    the target's address space, into any new resource. *)
Theorem C91_read_refuted W e id base name schema w : 8 <= W <= 62 ->
  let st := FileStorage id base in
  w_faults w = [] -> fresh_name st name w -> unblocked st name w -> schema_ok st schema ->
  exists cs w1, Forall (fun c => len c <= 2 ^ (W - 1) - 1) cs /\
    stream_w W Release e st name schema cs w = (Ret (Ok tt), w1) /\
    forall b' e', fresh_read b' e' base name schema w1 = Ret (Er EUnexpectedDataSize).
Proof. exact (stream_lost W e id base name schema w). Qed.
Print Assumptions C91_read_refuted.

(** ** Examples *)

Definition nw_chunks := [repeat 7 100; repeat 8 100; repeat 9 100].
Definition nw_run W b cs := stream_w W b LE ex_fs "x" ex_schema cs ex_w.
Definition nw_read W b cs := let (o, w1) := nw_run W b cs in
  (omap (fun _ => tt) o, omap seen (fresh_read Debug LE "/d" "x" ex_schema w1)).
Definition nw_8 := Eval vm_compute in nw_read 8 Release nw_chunks.
Definition nw_9 := Eval vm_compute in nw_read 9 Debug nw_chunks.
Definition nw_files W b cs := firstn 10 (match w_files (snd (nw_run W b cs)) (key_of "/d/x") with Some c => c | None => [] end).
Lemma nw_ready : fresh_name ex_fs "x" ex_w /\ unblocked ex_fs "x" ex_w /\ w_faults ex_w = [] /\ schema_ok ex_fs ex_schema /\ data_ok (List.concat nw_chunks).
Proof.
  split; [repeat split|]. split; [|split; [reflexivity|split]].
  - split; (split; [reflexivity|left; split; [repeat split; discriminate|apply ex_base_ready]]).
  - apply ex_schema_ok.
  - split; [|vm_compute; congruence]. apply Forall_forall. intros x Hx.
    assert (B : forallb (fun x => (0 <=? x) && (x <? 256)) (List.concat nw_chunks) = true) by reflexivity.
    rewrite forallb_forall in B. apply B in Hx. unfold is_byte. lia.
Qed.
(** 300 bytes do not fit 8 bits and fit 9. *)
Example C91_example :
  (fresh_name ex_fs "x" ex_w /\ unblocked ex_fs "x" ex_w /\ w_faults ex_w = [] /\ schema_ok ex_fs ex_schema /\ data_ok (List.concat nw_chunks)) /\
  nw_8 = (Ret tt, Ret (Er EUnexpectedDataSize)) /\
  nw_9 = (Ret tt, Ret (Ok (List.concat nw_chunks))) /\
  fst (nw_run 8 Debug nw_chunks) = Panic /\
  nw_files 8 Release nw_chunks = [44; 0; 0; 0; 0; 0; 0; 0; 7; 7] /\
  nw_files 9 Release nw_chunks = [44; 1; 0; 0; 0; 0; 0; 0; 7; 7].
Proof. split; [apply nw_ready|]. vm_compute. repeat split. Qed.
