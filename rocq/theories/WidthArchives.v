(** Opening an archive on a target whose [usize] has [W] bits (cf. Width.v).  The
    functions are those of Storage.v and Archives.v with the checks of Width.v;
    nothing else in them is a [usize]. *)
From Verif Require Import Base Codec Structs Views Storage Writers MultiViews Archives Width.
Local Open Scope list_scope.
Local Open Scope Z_scope.

Section Width.
Variables (W : Z) (b : build) (e : endian).

(** read / read_and_check_schema, storage.rs:34-36 and 92-126 *)
Definition read_w (st : storage) (name : string) (expected : list Z) : M (result slice rs_error) :=
  let? data :=(fun k => EIo k name) read_resource st name in
  let? schema :=(fun k => EIo k name) read_resource st (schema_name name) in
  lift (check_resource_w W b e name expected data schema).

(** The parts of open, archive.rs:600-633 *)
Definition open_typed_w (st : storage) (r : typed_res) : M (result (option slice) rs_error) :=
  check_part (tr_opt r) (read_w st (tr_name r) (tr_schema r)).
Definition open_multi_w (st : storage) (r : multi_res) : M (result (option slice * option slice) rs_error) :=
  let? i := check_part (mr_opt r) (read_w st (mr_index r) (index_schema (mr_schema r))) in
  let? d := check_part (mr_opt r) (read_w st (mr_name r) (mr_schema r)) in
  mret (Ok (i, d)).
Definition open_raw_w (st : storage) (r : raw_res) : M (result (option slice) rs_error) :=
  check_part (rr_opt r) (read_w st (rr_name r) (rr_schema r)).

(** Archive::open, archive.rs:589-651 *)
Fixpoint open_archive_w (a : adesc) (st : storage) {struct a} : M (result archive rs_error) :=
  let 'mkArchive name schema structs vectors multis raws subs := a in
  let? _ := read_w st (signature_name name) schema in
  let? ss := each (open_typed_w st) structs in
  let? vs := each (open_typed_w st) vectors in
  let? ms := each (open_multi_w st) multis in
  let? rs := each (open_raw_w st) raws in
  let? us := (fix go (l : list (string * adesc * bool)) : M (result (list (option archive)) rs_error) :=
                match l with
                | [] => mret (Ok [])
                | (n, a', opt) :: r =>
                    let? y := check_part opt (let! st' := subdir st n in open_archive_w a' st') in
                    let? ys := go r in
                    mret (Ok (y :: ys))
                end) subs in
  mret (Ok (mkOpened ss vs ms rs us)).
End Width.
