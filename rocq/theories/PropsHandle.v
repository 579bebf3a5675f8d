(** Property C86: what a resource handle answers to any sequence of calls.
    Vocabulary: [handle_run] and [refused] of HandleSpec.v, [resource_bytes]
    (header, data, padding) and [unblocked] of StorageSpec.v. *)
From Verif Require Import Base BaseFacts Codec CodecSpec Structs StructsSpec StructsFacts Views ViewsSpec.
From Verif Require Import Storage PathFacts StorageSpec StorageFacts StorageMore StorageUse PropsStorage.
From Verif Require Import Writers WritersSpec HandleFacts ExtVecFacts ExtVecUse HandleSpec HandleUse PropsExtVec.
Local Open Scope list_scope.
Local Open Scope Z_scope.

(** Writes succeed, the first close gives everything written, and all calls
    after it are refused and change nothing. *)
Theorem C86_session b e st name schema ds rest w :
  schema_ok st schema -> maps_ok w -> fresh_name st name w -> unblocked st name w ->
  (is_file st = true -> w_faults w = []) ->
  bytes_ok (concat ds) -> len (concat ds) + 16 <= isize_max ->
  exists h w1 h2 w2 sl h3 w3,
    create_handle b e st name schema w = (Ret (Ok h), w1) /\
    handle_run b e (List.map HWrite ds) h w1 = (Ret (List.map (fun _ => AWrite (Ok tt)) ds, h2), w2) /\
    is_open h2 = true /\
    handle_run b e (List.map HWrite ds ++ HClose :: rest) h w1 =
      (Ret (List.map (fun _ => AWrite (Ok tt)) ds ++ AClose (Ok sl) :: List.map (refused name) rest, h3), w3) /\
    is_open h3 = false /\ sl_bytes sl = concat ds /\ slice_ok sl /\
    bytes_at (cell_at st name) w3 = Some (resource_bytes (concat ds)) /\
    bytes_at (cell_at st (schema_name name)) w3 = Some schema.
Proof. exact (handle_session b e st name schema ds rest w). Qed.
Print Assumptions C86_session.

(** A closed handle, in any world and with any I/O failures ahead. *)
Theorem C86_closed b e calls h w : is_open h = false ->
  handle_run b e calls h w = (Ret (List.map (refused (h_name h)) calls, h), w).
Proof. exact (closed_run b e calls h w). Qed.
Print Assumptions C86_closed.

(** Dropping panics exactly for open handles, unless the thread panics already. *)
Theorem C86_drop panicking h w :
  handle_drop panicking h w = (if panicking then Ret tt else if is_open h then Panic else Ret tt, w).
Proof. unfold handle_drop. destruct panicking, (is_open h); reflexivity. Qed.
Print Assumptions C86_drop.

(** A close that returns either leaves the handle open and reports the I/O
    error, or closes it and gives what reading the resource gives. *)
Theorem C86_close_states b e h w r h' w' : handle_close b e h w = (Ret (r, h'), w') ->
  h_size h' = h_size h /\ h_storage h' = h_storage h /\ h_name h' = h_name h /\ h_schema h' = h_schema h /\
  (is_open h = true ->
   if is_open h' then exists k, r = Er (EIo k (h_name h))
   else exists w1, read b e (h_storage h) (h_name h) (h_schema h) w1 = (Ret r, w')).
Proof. exact (close_states b e h w r h' w'). Qed.
Print Assumptions C86_close_states.

(** ** Examples *)
Definition seen_answer (a : answer) : result (option (list Z)) (option rs_error) :=
  match a with
  | AWrite (Ok _) => Ok None
  | AWrite (Er k) => Er (Some (EIo k ""))
  | AClose (Ok sl) => Ok (Some (sl_bytes sl))
  | AClose (Er x) => Er (Some x)
  end.
Definition hx_calls := [HWrite [1; 2]; HWrite []; HWrite [3]; HClose; HWrite [4]; HClose].
Definition hx_go (st : storage) (f : list fault) (calls : list hcall) :=
  match create_handle Debug LE st "x" [65] ex_w with
  | (Ret (Ok h), w1) =>
      match handle_run Debug LE calls h (set_faults f w1) with
      | (Ret (ans, h'), w2) => (List.map seen_answer ans, is_open h', bytes_at (cell_at st "x") w2)
      | _ => ([], true, None)
      end
  | _ => ([], true, None)
  end.
Definition hx_answers : list (result (option (list Z)) (option rs_error)) :=
  [Ok None; Ok None; Ok None; Ok (Some [1; 2; 3]);
   Er (Some (EIo KUnexpectedEof "")); Er (Some (EIo KUnexpectedEof "x"))].
Example C86_example :
  schema_ok ex_fs [65] /\ fresh_name ex_fs "x" ex_w /\ unblocked ex_fs "x" ex_w /\
  schema_ok ex_ms [65] /\ fresh_name ex_ms "x" ex_w /\ w_faults ex_w = [] /\
  hx_go ex_fs [] hx_calls = (hx_answers, false, Some (resource_bytes [1; 2; 3])) /\
  hx_go ex_ms [] hx_calls = (hx_answers, false, Some (resource_bytes [1; 2; 3])).
Proof.
  split; [apply ex_short_schema|]. split; [apply ex_fresh_file|]. split; [apply ex_unblocked|].
  split; [apply ex_short_schema|]. split; [apply ex_fresh_mem|]. split; [reflexivity|].
  split; vm_compute; reflexivity.
Qed.

(** Calling close again after it failed is not safe: three bytes of the header
    are written when the disk is full, the second close pads at that position,
    and the resource reads back with its first bytes gone. *)
Theorem C86_retry_refuted :
  hx_go ex_fs [FOk; FOk; FOk; FShort 3 KOther] [HWrite [1; 2; 3; 4; 5]; HClose; HClose] =
  ([Ok None; Er (Some (EIo KOther "x")); Ok (Some [0; 0; 0; 4; 5])], false,
   Some (resource_bytes [0; 0; 0; 4; 5])).
Proof. vm_compute. reflexivity. Qed.
Print Assumptions C86_retry_refuted.
