(** Histories of resource handles, external vectors and multivectors on a target
    whose [usize] has [W] bits, as [handle_run] of HandleSpec.v and [ev_run] and
    [mv_run] of Writers.v; they end with the close of
    WidthBuilders.v, which reads the resource back (storage.rs:321-346). *)
From Verif Require Import Base Codec Structs Views Storage Writers HandleSpec Width WidthWriters WidthVectors WidthBuilders.
Local Open Scope list_scope.
Local Open Scope Z_scope.

Section Width.
Variables (W : Z) (b : build) (e : endian) (lim : Z).

Fixpoint handle_run_w (calls : list hcall) (h : handle) : M (list answer * handle) :=
  match calls with
  | [] => mret ([], h)
  | HWrite d :: r =>
      let! x := handle_write_w W b h d in
      let! y := handle_run_w r (snd x) in
      mret (AWrite (fst x) :: fst y, snd y)
  | HClose :: r =>
      let! x := handle_close_w W b e h in
      let! y := handle_run_w r (snd x) in
      mret (AClose (fst x) :: fst y, snd y)
  end.
Fixpoint ev_run_w (s : sdesc) (ops : list ev_op) (v : ext_vec) : M (list bool * ext_vec) :=
  match ops with
  | [] => mret ([], v)
  | o :: r =>
      let! x := match o with
                | EGrow sets => ev_step_w W b e lim s sets v
                | EOther f => fun w => (Ret (true, v), f w)
                end in
      let! y := ev_run_w s r (snd x) in
      mret (fst x :: fst y, snd y)
  end.
Fixpoint mv_run_w (size bits : Z) (ts : vdesc) (ops : list mv_op) (v : multi_vec) : M (list bool * multi_vec) :=
  match ops with
  | [] => mret ([], v)
  | o :: r =>
      let! x := match o with
                | MGrow items => mv_step_w W b e lim size bits ts items v
                | MOther f => fun w => (Ret (true, v), f w)
                end in
      let! y := mv_run_w size bits ts r (snd x) in
      mret (fst x :: fst y, snd y)
  end.
End Width.
