(** Streaming a resource on a target whose [usize] has [W] bits (cf. Width.v).
    Only the count of written bytes is a [usize]; the header is a u64
    (storage.rs:338). *)
From Verif Require Import Base Codec Storage Structs Views Writers Width Conc.
Local Open Scope list_scope.
Local Open Scope Z_scope.

Section Width.
Variable W : Z.

(** ResourceHandle::write, storage.rs:306-317; [handle_write] of Storage.v is
    this for 64 bits. *)
Definition handle_write_w (b : build) (h : handle) (d : list Z) : M (result unit io_kind * handle) :=
  match h_stream h with
  | None => mret (Er KUnexpectedEof, h)
  | Some s =>
      let! r := write_all s d in
      match r with
      | (Ok _, s) =>
          let! n := lift (uadd_w W b (h_size h) (len d)) in
          mret (Ok tt, mkHandle (Some s) n (h_storage h) (h_name h) (h_schema h))
      | (Er k, s) =>
          mret (Er k, mkHandle (Some s) (h_size h) (h_storage h) (h_name h) (h_schema h))
      end
  end.

(** The handle is made, the chunks are written, and the handle is closed (but for
    the read at the end of close). *)
Fixpoint handle_writes_w (b : build) (cs : list (list Z)) (h : handle) : M (result handle io_kind) :=
  match cs with
  | [] => mret (Ok h)
  | c :: cs =>
      let! r := handle_write_w b h c in
      match r with
      | (Ok _, h) => handle_writes_w b cs h
      | (Er k, _) => mret (Er k)
      end
  end.
Definition stream_w (b : build) (e : endian) (st : storage) (name : string) (schema : list Z) (cs : list (list Z))
    : M (result unit io_kind) :=
  let? h := create_handle b e st name schema in
  let? h := handle_writes_w b cs h in
  handle_finish b e h.
End Width.
