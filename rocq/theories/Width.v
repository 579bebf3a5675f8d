(** The readers on a target whose [usize] has [W] bits.  Everywhere else the
    model assumes a 64-bit target (Base.v).  The crate stores sizes and index
    values as u64 and converts them with [as usize], so on a narrower target
    the readers drop high bits.  Reading a field is done in the type of the
    field and does not depend on W: [read_bytes] and [get_index] are shared. *)
From Verif Require Import Base Codec Structs Views MultiViews Storage.
Local Open Scope list_scope.
Local Open Scope Z_scope.

Section Width.
Variable W : Z.

(** [usize] addition and multiplication. *)
Definition wrap_w (b : build) (x : Z) : outcome Z :=
  if (0 <=? x) && (x <? 2 ^ W) then Ret x
  else match b with Debug => Panic | Release => Ret (x mod 2 ^ W) end.
Definition uadd_w (b : build) (x y : Z) : outcome Z := wrap_w b (x + y).
Definition umul_w (b : build) (x y : Z) : outcome Z := wrap_w b (x * y).
(** [x as usize] of a u64. *)
Definition as_usize (x : Z) : Z := x mod 2 ^ W.

(** The checks of read_and_check_schema, src/storage.rs:106-125. *)
Definition check_resource_w (b : build) (e : endian) (name : string) (expected : list Z)
    (data schema : slice) : outcome (result slice rs_error) :=
  if sl_len data <? SIZE_OF_SIZE_TYPE + PADDING_SIZE then Ret (Er EUnexpectedDataSize)
  else
    size <- omap as_usize (read_bytes b e U64 (sl_mem data) 0 64) ;;
    a <- uadd_w b size SIZE_OF_SIZE_TYPE ;;
    total <- uadd_w b a PADDING_SIZE ;;
    if negb (total =? sl_len data) then Ret (Er EUnexpectedDataSize)
    else if negb (utf8_ok (sl_bytes schema)) then Ret (Er EUtf8)
    else if negb (bytes_eqb (sl_bytes schema) expected) then Ret (Er (EWrongSignature name))
    else
      d <- slice_from data SIZE_OF_SIZE_TYPE ;;
      d <- slice_range d 0 size ;;
      Ret (Ok d).

(** ArrayView::at, src/arrayview.rs:91-95 and 126-128. *)
Definition av_at_w (b : build) (s : sdesc) (v : view) (i : Z) : outcome (list Z) :=
  index <- umul_w b i (s_size s) ;;
  stop <- uadd_w b index (s_size s) ;;
  if stop <=? sl_len v then
    d <- slice_from v index ;;
    Ret (sl_mem d)
  else Panic.

(** IndexStruct::index, src/archive.rs:322-324, of the entry at [i]. *)
Definition mav_index_at_w (b : build) (e : endian) (size bits : Z) (v : mav) (i : Z) : outcome Z :=
  m <- av_at_w b (index_struct size bits) (ma_index v) i ;;
  omap as_usize (get_index b e bits m).

(** MultiArrayView::at, src/multiarrayview.rs:62-69. *)
Definition mav_at_w (b : build) (e : endian) (size bits : Z) (v : mav) (i : Z) : outcome slice :=
  start <- mav_index_at_w b e size bits v i ;;
  j <- uadd_w b i 1 ;;
  stop <- mav_index_at_w b e size bits v j ;;
  slice_range (ma_data v) start stop.
End Width.
