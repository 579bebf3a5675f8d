(** Closing writers, and archive builders, on a target whose [usize] has [W] bits
    (cf. Width.v).  The functions are those of Storage.v, Writers.v, Archives.v
    and BuilderSpec.v with the writers of WidthVectors.v and the reader of
    WidthArchives.v.  Creating an archive and the setters for whole resources
    (builder_new, set_struct, set_vector, set_raw, sub_builder) and starting
    writers have no [usize] in them and are shared. *)
From Verif Require Import Base Codec Structs Views Storage Writers MultiViews Archives BuilderSpec.
From Verif Require Import Width WidthWriters WidthVectors WidthArchives.
Local Open Scope list_scope.
Local Open Scope Z_scope.

Section Width.
Variables (W : Z) (b : build) (e : endian) (lim : Z).

(** close, storage.rs:321-346 *)
Definition handle_close_w (h : handle) : M (result slice rs_error * handle) :=
  let io k := EIo k (h_name h) in
  let reopen s := mkHandle (Some s) (h_size h) (h_storage h) (h_name h) (h_schema h) in
  match h_stream h with
  | None => mret (Er (io KUnexpectedEof), h)
  | Some s =>
      let! r := write_padding s in
      match r with
      | (Er k, s) => mret (Er (io k), reopen s)
      | (Ok _, s) =>
      let! r := seek_start s in
      match r with
      | (Er k, s) => mret (Er (io k), reopen s)
      | (Ok _, s) =>
      let! r := write_size b e (h_size h) s in
      match r with
      | (Er k, s) => mret (Er (io k), reopen s)
      | (Ok _, s) =>
          let h' := mkHandle None (h_size h) (h_storage h) (h_name h) (h_schema h) in
          let! d := read_w W b e (h_storage h) (h_name h) (h_schema h) in
          mret (d, h')
      end end end
  end.
(** close, vector.rs:336-343 *)
Definition ev_close_w (v : ext_vec) : M (result view rs_error) :=
  let! r := ev_flush_w W b v in
  match r with
  | (Er k, v) =>
      let! _ := handle_drop false (ev_handle v) in
      mret (Er (EIo k (h_name (ev_handle v))))
  | (Ok _, v) =>
      let! r := handle_close_w (ev_handle v) in
      let! _ := handle_drop false (snd r) in
      mret (fst r)
  end.
(** close, multivector.rs:199-207 *)
Definition mv_close_w (size bits : Z) (v : multi_vec) : M (result (view * slice) rs_error) :=
  let io k := EIo k (h_name (mv_handle v)) in
  let! r := mv_add_to_index_w W b e lim size bits v in
  match r with
  | (Er k, v) => let! _ := mv_drop v in mret (Er (io k))
  | (Ok _, v) =>
  let! r := mv_flush_w W b v in
  match r with
  | (Er k, v) => let! _ := mv_drop v in mret (Er (io k))
  | (Ok _, v) =>
  let! r := ev_close_w (mv_index v) in
  match r with
  | Er x => let! _ := handle_drop false (mv_handle v) in mret (Er x)
  | Ok iv =>
      let! r := handle_close_w (mv_handle v) in
      let! _ := handle_drop false (snd r) in
      match fst r with
      | Er x => mret (Er x)
      | Ok d => mret (Ok (iv, d))
      end
  end end end.

(** Growing a vector and calling setters on the new element, as [ev_step] and
    [mv_step]. *)
Definition ev_step_w (s : sdesc) (sets : list (nat * Z)) (v : ext_vec) : M (bool * ext_vec) :=
  let! r := ev_grow_w W b lim s v in
  match r with
  | (Ok p, v) => let! v := ev_set b e s sets p v in mret (true, v)
  | (Er _, v) => mret (false, v)
  end.
Definition mv_step_w (size bits : Z) (ts : vdesc) (items : list (nat * list (nat * Z))) (v : multi_vec) : M (bool * multi_vec) :=
  let! r := mv_grow_w W b e lim size bits v in
  match r with
  | (Ok _, v) => let! v := mv_add_w W b e ts items v in mret (true, v)
  | (Er _, v) => mret (false, v)
  end.

(** A user of a builder, as [bstep] and [brun]. *)
Fixpoint bstep_w (a : adesc) (o : bop) (s : bstate) {struct o} : M (bool * bstate) :=
  let st := bs_st s in
  let no := mret (false, s) in
  match o with
  | BStruct k m => with_some (nth_error (ad_structs a) k) no (fun r =>
      let! x := set_struct b e st r m in mret (is_ok x, s))
  | BVector k v => with_some (nth_error (ad_vectors a) k) no (fun r =>
      let! x := set_vector b e st r v in mret (is_ok x, s))
  | BVecStart k => with_some (nth_error (ad_vectors a) k) no (fun r =>
      let! x := start_vector b e st r in
      mret (match x with Ok v => (true, put_vec k (Some v) s) | Er _ => (false, s) end))
  | BVecGrow k sets => with_some (nth_error (ad_vectors a) k) no (fun r =>
      with_some (bs_vecs s k) no (fun v =>
      let! x := ev_step_w (tr_struct r) sets v in
      mret (fst x, put_vec k (Some (snd x)) s)))
  | BVecClose k => with_some (bs_vecs s k) no (fun v =>
      let! x := ev_close_w v in mret (is_ok x, put_vec k None s))
  | BMulStart k => with_some (nth_error (ad_multis a) k) no (fun r =>
      let! x := start_multi b e st r in
      mret (match x with Ok v => (true, put_mul k (Some v) s) | Er _ => (false, s) end))
  | BMulGrow k items => with_some (nth_error (ad_multis a) k) no (fun r =>
      with_some (bs_muls s k) no (fun v =>
      let! x := mv_step_w (mr_size r) (mr_bits r) (mr_types r) items v in
      mret (fst x, put_mul k (Some (snd x)) s)))
  | BMulClose k => with_some (nth_error (ad_multis a) k) no (fun r =>
      with_some (bs_muls s k) no (fun v =>
      let! x := mv_close_w (mr_size r) (mr_bits r) v in mret (is_ok x, put_mul k None s)))
  | BRaw k d => with_some (nth_error (ad_raws a) k) no (fun r =>
      let! x := set_raw b e st r d in mret (is_ok x, s))
  | BSubNew k => with_some (nth_error (ad_subs a) k) no (fun r =>
      let! x := sub_builder b e st r in
      mret (match x with Ok st' => (true, put_sub k (Some (new_bstate st')) s) | Er _ => (false, s) end))
  | BSub k o => with_some (nth_error (ad_subs a) k) no (fun r =>
      with_some (bs_subs s k) no (fun s' =>
      let! x := bstep_w (snd (fst r)) o s' in
      mret (fst x, put_sub k (Some (snd x)) s)))
  end.
Fixpoint brun_w (a : adesc) (ops : list bop) (s : bstate) : M (list bool * bstate) :=
  match ops with
  | [] => mret ([], s)
  | o :: r =>
      let! x := bstep_w a o s in
      let! y := brun_w a r (snd x) in
      mret (fst x :: fst y, snd y)
  end.
End Width.
