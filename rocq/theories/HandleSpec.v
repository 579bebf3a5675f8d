(** Sequences of calls on one ResourceHandle, storage.rs:306-346.  Used to
    state C86 and C98: [handle_run] makes the calls one after another on the model of
    Storage.v, [refused] is the answer of a closed handle. *)
From Verif Require Import Base Storage.
Local Open Scope list_scope.

Inductive hcall := HWrite (d : list Z) | HClose.
Inductive answer := AWrite (r : result unit io_kind) | AClose (r : result slice rs_error).

Fixpoint handle_run (b : build) (e : endian) (calls : list hcall) (h : handle)
    : M (list answer * handle) :=
  match calls with
  | [] => mret ([], h)
  | HWrite d :: r =>
      let! x := handle_write b h d in
      let! y := handle_run b e r (snd x) in
      mret (AWrite (fst x) :: fst y, snd y)
  | HClose :: r =>
      let! x := handle_close b e h in
      let! y := handle_run b e r (snd x) in
      mret (AClose (fst x) :: fst y, snd y)
  end.

Definition refused (name : string) (c : hcall) : answer :=
  match c with
  | HWrite _ => AWrite (Er KUnexpectedEof)
  | HClose => AClose (Er (EIo KUnexpectedEof name))
  end.

(** What the successful ones of the calls [HWrite d] for [d] in [ds] wrote. *)
Fixpoint sent (ds : list (list Z)) (l : list answer) : list Z :=
  match ds, l with
  | d :: ds, AWrite (Ok _) :: l => d ++ sent ds l
  | _ :: ds, _ :: l => sent ds l
  | _, _ => []
  end.
