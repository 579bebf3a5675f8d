(** Processes side by side whose system calls may fail and which may be killed,
    and a process beside anything else that uses the disk.  Programs, jobs and
    steps without failures are in Conc.v. *)
From Verif Require Import Base Codec Storage Writers Conc.
Local Open Scope list_scope.
Local Open Scope Z_scope.

(** One step of a process: as in Conc.v, a system call that fails (a write also
    after some of its parts; a failing stat counts as "does not exist"), or the
    end of a process that is killed. *)
Inductive fstep {A} : world -> prog A -> world -> prog A -> Prop :=
| fs_ok w p w' p' : pstep w p w' p' -> fstep w p w' p'
| fs_stat_err w k f : fstep w (Stat k f) w (f false)
| fs_mkdirs_err w k f x : fstep w (MkDirs k f) w (f (Er x))
| fs_create_err w k f x : fstep w (CreateFile k f) w (f (Er x))
| fs_seek_err w f x : fstep w (Seek f) w (f (Er x))
| fs_put_err w k q d f x : fstep w (PutAt k q d f) w (f (Er x, SFile k q))
| fs_killed w p : (forall o, p <> Done o) -> fstep w p w (Done Crash).

(** Any one of the processes moves. *)
Inductive fpool_run {A} : world -> list (prog A) -> world -> list (prog A) -> Prop :=
| frun_stop w l : fpool_run w l w l
| frun_move w l1 p l2 w1 p1 w2 l : fstep w p w1 p1 -> fpool_run w1 (l1 ++ p1 :: l2) w2 l ->
    fpool_run w (l1 ++ p :: l2) w2 l.

(** The process moves, or the disk is changed by others in some way that [spares]
    allows. *)
Inductive beside {A} (spares : world -> world -> Prop) : world -> prog A -> world -> prog A -> Prop :=
| beside_stop w p : beside spares w p w p
| beside_mine w p w1 p1 w2 p2 : fstep w p w1 p1 -> beside spares w1 p1 w2 p2 -> beside spares w p w2 p2
| beside_theirs w p w1 w2 p2 : spares w w1 -> beside spares w1 p w2 p2 -> beside spares w p w2 p2.

(** For examples: the named process does its next call as in [advance], its next
    call fails, or it is killed. *)
Inductive move := Go (i : nat) | Fail (i : nat) | Kill (i : nat).
Definition refuse {A} (p : prog A) : prog A :=
  match p with
  | Done o => Done o
  | Stat k f => f false
  | MkDirs k f => f (Er KOther)
  | CreateFile k f => f (Er KOther)
  | Seek f => f (Er KOther)
  | PutAt k q d f => f (Er KOther, SFile k q)
  end.
Definition kill {A} (p : prog A) : prog A := match p with Done o => Done o | _ => Done Crash end.
Definition put_back {A} (i : nat) (p : prog A) (l : list (prog A)) : list (prog A) := firstn i l ++ p :: skipn (S i) l.
Fixpoint fschedule {A} (s : list move) (w : world) (l : list (prog A)) : world * list (prog A) :=
  match s with
  | [] => (w, l)
  | m :: s =>
      let i := match m with Go i | Fail i | Kill i => i end in
      match nth_error l i with
      | None => (w, l)
      | Some p =>
          match m with
          | Go _ => match advance w p with None => fschedule s w l | Some (w', p') => fschedule s w' (put_back i p' l) end
          | Fail _ => fschedule s w (put_back i (refuse p) l)
          | Kill _ => fschedule s w (put_back i (kill p) l)
          end
      end
  end.
